(** C99, C100: what ippclient says (SaySpec.v). *)
From Verif Require Import Base BaseLemmas MapModel StringModel StringSpec StringProperties StringProofs ParamsModel ParamsSpec ParamsProperties PpmCmdSpec IppModel IppEncProofs JsonModel ArgModel HelpModel SettingModel SettingProperties ConverterModel JobModel PrinterModel PrinterSpec JobProperties PrinterProperties SettingsModel ClientModel ClientSpec ClientProperties ClientCmdSpec ClientCmdProperties OutputModel OutputProperties SayModel SayProofs SaySpec.
From Coq Require Import Lia ZifyBool ZifyNat ZifyN.
Local Open Scope Z_scope.

(** ** C99 *)
(** The model with the output does what the one without does. *)
Theorem C99_same pdf e junk name args : same_run (client e junk args) (say_client pdf e junk name args).
Proof. apply say_client_same. Qed.

Lemma lines_app a b : lines b -> lines (a ++ b).
Proof. intros (t & N & ->). exists (a ++ t)%string. split; [destruct a; [exact N|discriminate]|]. symmetry. apply append_assoc. Qed.
Lemma lines_end a : a <> ""%string -> lines (a ++ endl).
Proof. intros N. exists a. split; [exact N|reflexivity]. Qed.
Lemma lines_char c a : lines (String c a ++ endl).
Proof. apply lines_end. discriminate. Qed.
Lemma lines_more c a b : lines ((String c a ++ b) ++ endl) -> lines (String c a ++ b ++ endl).
Proof. rewrite append_assoc. trivial. Qed.
Ltac lns := first [apply lines_more, lines_char | apply lines_char | apply lines_app; lns].
Lemma lines_error hint help : lines (error_text hint help).
Proof. unfold error_text. do 4 apply lines_app. exists endl. split; [discriminate|reflexivity]. Qed.
Lemma lines_refusal doc b h : lines (refusal doc b h).
Proof. unfold refusal. do 3 apply lines_app. destruct b; [apply lines_app; change endl with (String "010" "") at 1; apply lines_more, lines_char|apply lines_char]. Qed.
Ltac told H := apply (f_equal (fun x => match x with Ok (inr t) => t | _ => ""%string end)) in H; cbv beta iota in H; rewrite <- H; clear H.
(** the options *)
Definition errs {A} (x : outcome (A + string)) : Prop := forall m, x = Ok (inr m) -> lines m.
Lemma errs_bind x k : errs x -> (forall j, errs (k j)) -> errs (sbind x k).
Proof. intros H K m E. unfold sbind in E. bind_inv E as o E1 E. destruct o as [j|n]; [exact (K j m E)|]. injection E as <-. exact (H n E1). Qed.
Lemma errs_or_fail g doc hint b sup force set j : errs (say_or_fail g doc hint b sup force set j).
Proof.
  intros m H. unfold say_or_fail in H. destruct g; [|discriminate]. bind_inv H as ok O H. destruct (ok || force); [bind_inv H as j' J H; discriminate|]. injection H as <-. apply lines_refusal.
Qed.
Lemma errs_guard {A B} (g : outcome A) (k : A -> outcome (B + string)) : (forall a, errs (k a)) -> errs (let! a := g in k a).
Proof. intros K m H. bind_inv H as a E H. exact (K a m H). Qed.
Ltac ers := apply errs_bind; [apply errs_or_fail|intros ?].
Lemma errs_margin st force j : errs (say_margin st force j).
Proof. unfold say_margin. destruct (a_set st 21); [|discriminate]. destruct (negb force && _); [intros m H; told H; do 3 apply lines_app; apply lines_char|]. cbv zeta. do 3 ers. apply errs_or_fail. Qed.
Lemma errs_options help st pa force j : errs (say_options help st pa force j).
Proof.
  unfold say_options. apply errs_bind.
  { unfold say_pages. destruct (a_set st 4); [|discriminate]. apply errs_guard. intros l. destruct l; [intros m H; injection H as <-; apply lines_error|]. apply errs_guard. discriminate. }
  intros j1. unfold say_other. apply errs_bind; [unfold say_copies; apply errs_guard; intros f; apply errs_or_fail|intros j2]. do 2 ers.
  destruct (negb _); [intros m H; injection H as <-; apply lines_error|]. unfold say_later. apply errs_guard. intros l. cbv zeta. do 4 ers. apply errs_guard. intros names. do 7 ers.
  apply errs_bind; [apply errs_margin|intros ?]. do 3 ers. apply errs_or_fail.
Qed.
Lemma errs_prepare help e st pa : errs (say_prepare help e st pa).
Proof.
  unfold say_prepare. apply errs_guard. intros j. apply errs_guard. intros j1. cbv zeta. destruct (input_format e st).
  - intros m H. bind_inv H as r R H. destruct r as [x|n]; [discriminate|]. injection H as <-. exact (errs_options _ _ _ _ _ _ R).
  - intros m H. told H. apply lines_char.
Qed.
(** the results of runs *)
Definition runs {A} (P : list event -> A -> Prop) (x : list event * outcome A) : Prop := forall a, snd x = Ok a -> P (fst x) a.
Definition grows {A} (P : list event -> A -> Prop) : Prop := forall ev ev' a, P ev' a -> P (ev ++ ev') a.
Lemma runs_bind {A B} (P : list event -> B -> Prop) (x : list event * outcome A) k : grows P -> (forall a, runs P (k a)) -> runs P (ebind x k).
Proof. intros G K b H. destruct (ebind_ok _ _ _ H) as (a & _ & E & F). rewrite F. apply G, K, E. Qed.
Lemma runs_pure {A} (P : list event -> A -> Prop) x : (forall a, x = Ok a -> P [] a) -> runs P (pure x).
Proof. intros H a E. exact (H a E). Qed.
Definition explained_said (ev : list event) (s : said) : Prop := explained ev (s_out s) (s_err s) (s_code s).
Lemma explained_grows : grows explained_said.
Proof. intros ev ev' s [(C & [E|(path & I & E)])|H]; [left; auto|left; split; [exact C|]; right; exists path; split; [apply in_or_app; right; exact I|exact E]|right; exact H]. Qed.
Lemma explained_fails m : lines m -> runs explained_said (pure (Ok (fails m))).
Proof. intros L. apply runs_pure. intros a H. injection H as <-. right. split; [reflexivity|]. split; [reflexivity|exact L]. Qed.
Lemma explained_ok o : runs explained_said (pure (Ok (mkSaid o "" 0))).
Proof. apply runs_pure. intros a H. injection H as <-. left. split; [reflexivity|left; reflexivity]. Qed.
Lemma explained_ends what o (x : list event * outcome (option string)) : runs explained_said (do! error := x in pure (Ok (ends what o error))).
Proof. apply runs_bind; [exact explained_grows|]. intros [m|]; [|apply explained_ok]. unfold ends. apply explained_fails. lns. Qed.
(** What printing says: for a printer on the network, what the response tells; for a file, its
    name *)
Definition printed_told (w : world) (p : printer) (ev : list event) (out err : string) : Prop :=
  if string_starts_with (pr_addr p) "file://" then
    out = ""%string /\ (err = ""%string \/ exists path conv f j, In (Wrote path) ev /\ w_convert w conv f j = Ok None /\ err = ("Wrote " ++ path ++ line_feed)%string)
  else
    err = ""%string /\ exists hdr c conv f j body r rest, In (Streamed (pr_addr p) hdr) ev /\ w_await w (pr_addr p) hdr c conv f j = Response body /\ decodeMsg body = Ok (r, rest)
      /\ m_opOrStatus r < 0xff /\ if pr_printJobId p then job_told r (bytes_of_string out) else out = ""%string.
Definition print_told (w : world) (p : printer) (ev : list event) (x : terminal * option string) : Prop :=
  match x with (t, Some _) => t = quiet | ((out, err), None) => printed_told w p ev out err end.
Lemma print_told_grows w p : grows (print_told w p).
Proof.
  intros ev ev' [[out err] [m|]] H; [exact H|]. cbn [print_told] in *. unfold printed_told in *. destruct (string_starts_with _ _).
  - destruct H as [H [K|(path & conv & f & j & I & R)]]; (split; [exact H|]); [left; exact K|]. right. exists path, conv, f, j. split; [apply in_or_app; right; exact I|exact R].
  - destruct H as (H & hdr & c & conv & f & j & body & r & rest & I & R). split; [exact H|]. exists hdr, c, conv, f, j, body, r, rest. split; [apply in_or_app; right; exact I|exact R].
Qed.
Lemma get_int_told k m z : get_int_attr k m = Ok z -> (map_get k m = None /\ z = 0) \/ exists t, map_get k m = Some (t, VInt z).
Proof.
  intros H. destruct (map_has k m) eqn:E; [right; exact (get_int_some _ _ _ H E)|left]. unfold get_int_attr, attrs_get, attrs_at, map_has in *. destruct (map_get k m) as [[t v]|]; [discriminate|]. cbn in H. split; [reflexivity|congruence].
Qed.
Lemma told_print w p j f conv hdr : string_starts_with (pr_addr p) "file://" = false -> runs (print_told w p) (say_print w p j f conv hdr).
Proof.
  intros F x H. unfold say_print in *. cbn [fst snd] in *. bind_inv H as c C H. bind_inv H as er E H. destruct er as [er|]; [injection H as <-; reflexivity|].
  destruct (w_await w (pr_addr p) hdr c conv f j) as [t|body] eqn:A; [injection H as <-; reflexivity|]. bind_inv H as q Q H. destruct q as [r rest]. destruct (Z.ltb_spec (m_opOrStatus r) 255) as [L|L].
  2: { bind_inv H as s S0 H. injection H as <-. reflexivity. }
  destruct (m_jobAttrs r) as [|g gs] eqn:J.
  - injection H as <-. unfold quiet. cbn [print_told]. unfold printed_told. rewrite F. split; [reflexivity|]. exists hdr, c, conv, f, j, body, r, rest. split; [left; reflexivity|]. do 3 (split; [assumption|]).
    destruct (pr_printJobId p); [|reflexivity]. unfold job_told. rewrite J. reflexivity.
  - destruct (pr_printJobId p) eqn:P.
    + bind_inv H as n N H. injection H as <-. cbn [print_told]. unfold printed_told. rewrite F, P. split; [reflexivity|]. exists hdr, c, conv, f, j, body, r, rest. split; [left; reflexivity|]. do 3 (split; [assumption|]).
      unfold job_told. rewrite J. exists n, (int_text n). split; [exact (get_int_told _ _ _ N)|]. split; [apply decimal_int|reflexivity].
    + injection H as <-. unfold quiet. cbn [print_told]. unfold printed_told. rewrite F, P. split; [reflexivity|]. exists hdr, c, conv, f, j, body, r, rest. split; [left; reflexivity|]. do 3 (split; [assumption|]). reflexivity.
Qed.
Ltac grow := apply runs_bind; [apply print_told_grows|intros ?].
Lemma told_job_body w p id j f fmt n : runs (print_told w p) (say_job_body w p id j f fmt n).
Proof.
  assert (Q : forall m, runs (print_told w p) (pure (Ok (quiet, Some m)))) by (intros m; apply runs_pure; intros x H; injection H as <-; reflexivity).
  unfold say_job_body. cbv zeta. grow. grow. destruct a0 as [[m|] j']; [apply Q|]. destruct (getConvertFun fmt (j_target j')) as [conv|]; [|apply Q].
  destruct (string_starts_with (pr_addr p) "file://") eqn:F.
  - intros x H. destruct (ebind_ok _ _ _ H) as (r & E1 & E2 & E3). rewrite E3. injection E2 as <-. unfold say_print_to_file in *. destruct (ebind_ok _ _ _ E1) as (ext & _ & E4 & E5). rewrite E5. cbn [fst snd] in *. clear E3 E5 E1 H.
    bind_inv E4 as er W E4. injection E4 as <-. destruct er as [er|]; cbn [print_told fst quiet]; unfold printed_told; rewrite F; (split; [reflexivity|]); [left; reflexivity|right].
    eexists. exists conv, f, j'. split; [|split; [exact W|reflexivity]]. rewrite app_nil_r. apply in_or_app. right. left. reflexivity.
  - destruct (_ && _).
    + grow. grow. destruct a1 as [[m|] resp]; [apply Q|]. destruct (_ && _); [do 3 grow; apply told_print; exact F|]. grow. apply Q.
    + do 2 grow. apply told_print. exact F.
Qed.
Lemma told_job w p id j f fmt n : runs (print_told w p) (say_job w p id j f fmt n).
Proof.
  intros x H. unfold say_job in *. cbn [fst snd] in *. pose proof (told_job_body w p id (copy_job j) f fmt n) as T. destruct (snd (say_job_body w p id (copy_job j) f fmt n)) as [y|e| | |] eqn:E; try discriminate H.
  - injection H as <-. exact (T _ E).
  - injection H as <-. reflexivity.
Qed.
Lemma print_told_file w p ev out err : printed_told w p ev out err -> err = ""%string \/ exists path, In (Wrote path) ev /\ err = ("Wrote " ++ path ++ line_feed)%string.
Proof. unfold printed_told. destruct (string_starts_with _ _); [intros [_ [H|(path & conv & f & j & I & _ & E)]]; eauto|intros [H _]; auto]. Qed.
(** what the command print says *)
Definition command_told (w : world) (addr : string) (ids : bool) (pa : ipp_attrs) (ev : list event) (s : said) : Prop :=
  (s_code s = 1 /\ s_out s = [] /\ lines (s_err s)) \/ (s_code s = 0 /\ exists out, s_out s = bytes_of_string out /\ printed_told w (mkPrinter addr ids pa) ev out (s_err s)).
Lemma command_told_grows w addr ids pa : grows (command_told w addr ids pa).
Proof. intros ev ev' s [H|(H & out & E & K)]; [left; exact H|right]. split; [exact H|]. exists out. split; [exact E|]. exact (print_told_grows w _ ev ev' ((out, s_err s), None) K). Qed.
Lemma told_command pdf help e st p id : runs (command_told (e_world e) (pr_addr p) (as_bool (a_val st 27)) (pr_attrs p)) (say_print_command pdf help e st p id).
Proof.
  set (P := command_told _ _ _ _). assert (G : grows P) by apply command_told_grows.
  assert (Fa : forall m, lines m -> runs P (pure (Ok (fails m)))) by (intros m L; apply runs_pure; intros x H; injection H as <-; left; split; [reflexivity|split; [reflexivity|exact L]]).
  unfold say_print_command. intros s H. rewrite ebind_pure in *. destruct (say_prepare help e st (pr_attrs p)) as [[[j fmt]|m]| | | |] eqn:Pr; try discriminate H; [|exact (Fa m (errs_prepare _ _ _ _ _ Pr) _ H)].
  revert s H. change (runs P match count_pages e fmt (as_str (a_val st 32)) with
      | None => let f := path_append (e_cwd e) (as_str (a_val st 32%nat)) in pure (Ok (fails ("Failed to open PDF: " ++ pdf f ++ " (" ++ f ++ ")" ++ endl)%string))
      | Some (inFile, pages) =>
          do! saved := (if as_bool (a_val st 28%nat) then do! s := pure (saveSettings (w_user (e_world e)) j) in match s with Some (path, _) => ([Wrote path], Ok true) | None => pure (Ok false) end else pure (Ok true)) in
          if negb saved then pure (Ok (fails ("Could not save settings. Aborting." ++ endl)%string))
          else do! r := say_job (e_world e) (mkPrinter (pr_addr p) (as_bool (a_val st 27%nat)) (pr_attrs p)) id j inFile fmt pages in
            let '((out, err), error) := r in
            pure (Ok (match error with None => mkSaid (bytes_of_string out) err 0 | Some m => mkSaid (bytes_of_string out) (err ++ "Print failed: " ++ m ++ endl)%string 1 end)) end).
  destruct (count_pages e fmt _) as [[f n]|]; [|apply Fa; cbv zeta; lns]. apply runs_bind; [exact G|intros saved]. destruct saved; cbn [negb]; [|apply Fa, lines_char].
  intros s H. destruct (ebind_ok _ _ _ H) as (r & E1 & E2 & E3). apply told_job in E1. rewrite E3. clear E3 H. destruct r as [[out err] [m|]]; cbn [pure snd] in E2; apply (f_equal (fun x => match x with Ok t => t | _ => s end)) in E2; cbv beta iota in E2; subst s.
  - cbn [print_told] in E1. injection E1 as -> ->. left. split; [reflexivity|]. split; [reflexivity|]. cbn [s_err]. lns.
  - right. split; [reflexivity|]. exists out. split; [reflexivity|]. cbn [pure fst s_err]. rewrite app_nil_r. exact E1.
Qed.
Lemma told_explained w addr ids pa x : runs (command_told w addr ids pa) x -> runs explained_said x.
Proof. intros H s E. destruct (H s E) as [K|(C & out & O & K)]; [right; exact K|left]. split; [exact C|]. exact (print_told_file _ _ _ _ _ K). Qed.

(** Whatever the words on the command line are: the exit code is 0 or 1, and with 1 there is
    a reason. *)
Theorem C99_reason pdf e junk name args ev s : say_client pdf e junk name args = (ev, Ok s) -> explained ev (s_out s) (s_err s) (s_code s).
Proof.
  intros H. assert (R : runs explained_said (say_client pdf e junk name args)); [|exact (eq_ind _ (fun x => explained x _ _ _) (R s (f_equal snd H)) _ (f_equal fst H))]. clear.
  unfold say_client. apply runs_bind; [exact explained_grows|]. intros [[[ok sub] msg] st]. cbv zeta. destruct (as_bool (a_val st 0)); [apply explained_ok|]. destruct ok; cbn [negb]; [|apply explained_fails, lines_error].
  apply runs_bind; [exact explained_grows|]. intros [[error pa] id]. destruct error; [apply explained_fails; lns|].
  destruct (String.eqb sub "info"); [apply runs_bind; [exact explained_grows|intros t; apply explained_ok]|].
  destruct (String.eqb sub "identify"); [apply explained_ends|]. destruct (String.eqb sub "get-attrs"); [apply explained_ok|].
  destruct (String.eqb sub "set-attrs").
  { unfold say_set_attrs. cbv zeta. set (l := split_string _ _). pose proof (bad_pair_none l) as B. destruct (bad_pair l) as [kv|]; [destruct (key_values l); (apply explained_fails; lns)|].
    destruct (key_values l); [apply explained_ends|]. exfalso. exact (proj1 B eq_refl eq_refl). }
  destruct (String.eqb sub "get-jobs"); [apply runs_bind; [exact explained_grows|intros [[m|] l]; [apply explained_fails; lns|apply explained_ok]]|].
  destruct (String.eqb sub "cancel-job"); [unfold say_cancel; destruct (a_set st 29); [apply explained_ends|apply explained_fails, lines_char]|].
  destruct (String.eqb sub "print"); [eapply told_explained, told_command|apply explained_ok].
Qed.

(** ** Printing *)
Definition print_help (name : string) : string := sub_arg_help name client_docs "print".
Lemma say_print_line pdf e junk name args rs addr file : line args "print" rs [addr; file] -> present rs "--help" = false ->
  exists st, print_read junk rs st /\ a_val st 32 = AStr file /\ say_client pdf e junk name args =
    do! y := open_printer e addr in
    let '(error, pa, id) := y in
    match error with
    | Some m => pure (Ok (fails ("Could not get printer attributes: " ++ m ++ endl)%string))
    | None => say_print_command pdf (print_help name) e st (mkPrinter addr false pa) id
    end.
Proof.
  intros H Hh. destruct (line_parsed junk _ _ _ _ H) as (flags & values & n & defs & pos & st & Hc & D & Hl & E & V & R & _). exists st. pose proof D as (F & _). cbn in F. injection F as <- <-.
  split; [exact R|]. split; [apply (V 1%nat pAddr); cbn; lia|]. unfold say_client. rewrite ebind_pure, E. cbv zeta.
  rewrite (line_help junk rs st print_switches); [|apply D|exact R]. rewrite Hh. cbn [negb]. specialize (V 0%nat pAddr ltac:(cbn; lia)). cbn [pa_id pAddr nth] in V. rewrite V. reflexivity.
Qed.
(** On a printer on the network, 0 means that its last response tells of success; and with
    --print-job-id the number of the job it tells of is said, and nothing otherwise. *)
Theorem C99_printed pdf e junk name args rs addr file ev s : line args "print" rs [addr; file] -> present rs "--help" = false -> ~ file_printer addr ->
  say_client pdf e junk name args = (ev, Ok s) -> s_code s = 0 ->
  s_err s = ""%string /\ exists hdr c conv f j body r rest, In (Streamed addr hdr) ev /\ w_await (e_world e) addr hdr c conv f j = Response body /\ decodeMsg body = Ok (r, rest)
    /\ m_opOrStatus r < 0xff /\ if present rs "--print-job-id" then job_told r (s_out s) else s_out s = [].
Proof.
  intros H Hh Hf S C. destruct (say_print_line pdf e junk name _ _ _ _ H Hh) as (st & R & _ & E). rewrite E in S. clear E.
  destruct (ebind_ok _ _ _ (f_equal snd S)) as ([[error pa] id] & E1 & E2 & E3). rewrite S in E3. cbn [fst] in E3. subst ev. clear S E1. destruct error as [m|]; [injection E2 as <-; discriminate C|].
  destruct (told_command _ _ _ _ _ _ _ E2) as [(K & _)|(_ & out & O & K)]; [congruence|]. cbn [pr_addr pr_attrs] in K. rewrite (off27 junk rs st R) in K. unfold printed_told in K. cbn [pr_addr pr_printJobId] in K.
  destruct (string_starts_with addr "file://") eqn:F; [exfalso; apply Hf; apply starts_with_spec; exact F|]. destruct K as (K & hdr & c & conv & f & j & body & r & rest & I & W & D & L & T). split; [exact K|].
  exists hdr, c, conv, f, j, body, r, rest. split; [apply in_or_app; right; exact I|]. do 3 (split; [assumption|]). rewrite O. destruct (present rs "--print-job-id"); [exact T|]. subst out. reflexivity.
Qed.
(** If the response has no job-id, a job 0 is spoken of. *)
Theorem C99_no_id_refuted w p j f conv hdr c body r rest g gs : pr_printJobId p = true -> compression_of j = Ok c -> w_convert w conv f j = Ok None ->
  w_await w (pr_addr p) hdr c conv f j = Response body -> decodeMsg body = Ok (r, rest) -> m_opOrStatus r < 0xff -> m_jobAttrs r = g :: gs -> map_get "job-id" g = None ->
  snd (say_print w p j f conv hdr) = Ok (("Job submitted successfully, with id: 0" ++ line_feed, "")%string, None).
Proof.
  intros P C W A D L J N. unfold say_print. cbn [snd]. rewrite C. cbn [bind]. rewrite W. cbn [bind]. rewrite A, D. cbn [bind]. rewrite (proj2 (Z.ltb_lt _ _) L), J, P. unfold get_int_attr, attrs_get, attrs_at. rewrite N. reflexivity.
Qed.
(** For a file, its name is said if and only if the conversion went well; *)
Theorem C99_file_partial pdf e junk name args rs addr file ev s : line args "print" rs [addr; file] -> present rs "--help" = false -> file_printer addr ->
  say_client pdf e junk name args = (ev, Ok s) -> s_code s = 0 ->
  s_out s = [] /\ (s_err s = ""%string \/ exists path conv f j, In (Wrote path) ev /\ w_convert (e_world e) conv f j = Ok None /\ s_err s = ("Wrote " ++ path ++ line_feed)%string).
Proof.
  intros H Hh Hf S C. destruct (say_print_line pdf e junk name _ _ _ _ H Hh) as (st & R & _ & E). rewrite E in S. clear E.
  destruct (ebind_ok _ _ _ (f_equal snd S)) as ([[error pa] id] & E1 & E2 & E3). rewrite S in E3. cbn [fst] in E3. subst ev. clear S E1. destruct error as [m|]; [injection E2 as <-; discriminate C|].
  destruct (told_command _ _ _ _ _ _ _ E2) as [(K & _)|(_ & out & O & K)]; [congruence|]. cbn [pr_addr pr_attrs] in K. unfold printed_told in K. cbn [pr_addr] in K. apply starts_with_spec in Hf. rewrite Hf in K.
  destruct K as [-> [K|(path & conv & f & j & I & W & K)]]; (split; [exact O|]); [left; exact K|right]. exists path, conv, f, j. split; [apply in_or_app; right; exact I|]. split; [exact W|exact K].
Qed.
(** but if it does not, the client says nothing and ends with 0. *)
Theorem C99_file_refuted w p id job f fmt pages j conv ext ops m :
  file_printer (pr_addr p) -> int_list "operations-supported" (pr_attrs p) = Ok ops -> finalize (copy_job job) fmt pages = Ok (None, j) ->
  getConvertFun fmt (j_target j) = Some conv -> defaultExtension (j_target j) = Ok ext ->
  w_convert w conv f j = Ok (Some m) -> snd (say_job w p id job f fmt pages) = Ok (quiet, None).
Proof.
  intros Hf Ho Hfin Hc He Hw. unfold say_job, say_job_body. rewrite ebind_pure, Ho, ebind_pure, Hfin, Hc.
  apply starts_with_spec in Hf. rewrite Hf. unfold say_print_to_file. rewrite ebind_pure, He. unfold ebind. cbn [fst snd]. rewrite Hw. reflexivity.
Qed.

(** ** C100 *)
Section refusals.
Variables (pa : ipp_attrs) (force : bool) (help : string).
Definition says (cs : list check) (x : outcome (job + string)) : Prop :=
  forall r, x = Ok r -> match r with inl j => j_printerAttrs j = pa /\ Forall (fine pa force) cs | inr m => first_complaint pa force help cs m end.
Lemma says_bind cs cs' x k : says cs x -> (forall j, j_printerAttrs j = pa -> says cs' (k j)) -> says (cs ++ cs') (sbind x k).
Proof.
  intros H K r E. unfold sbind in E. bind_inv E as o E1 E. specialize (H _ E1). destruct o as [j|m].
  - destruct H as [P F]. specialize (K j P r E). destruct r as [j'|m].
    + destruct K as [P' F']. split; [exact P'|]. apply Forall_app. auto.
    + destruct K as (before & c & after & -> & F' & K'). exists (cs ++ before)%list, c, after. rewrite <- app_assoc. split; [reflexivity|]. split; [apply Forall_app; auto|exact K'].
  - injection E as <-. destruct H as (before & c & after & -> & F & K'). exists before, c, (after ++ cs')%list. rewrite <- app_assoc. split; [reflexivity|]. split; [exact F|exact K'].
Qed.
Lemma says_guard {A} cs (g : outcome A) k : (forall a, g = Ok a -> says cs (k a)) -> says cs (let! a := g in k a).
Proof. intros K r H. bind_inv H as a E H. exact (K a E r H). Qed.
Lemma offered_spec s : isSupported pa s = true <-> offered pa s.
Proof. unfold isSupported, map_has, offered. destruct (map_get _ pa); split; intros H; try discriminate; try reflexivity; [eauto|destruct H; discriminate]. Qed.
Lemma complaint_refusal words s v h hint : (offered pa s -> hinted pa s h hint) -> complaint pa help (Asks words s v h) (refusal words (isSupported pa s) hint).
Proof.
  intros H. pose proof (offered_spec s) as O. unfold complaint, refusal. destruct (isSupported pa s).
  - split; [intros N; exfalso; apply N, O; reflexivity|]. intros K. exists hint. split; [exact (H K)|]. reflexivity.
  - split; [reflexivity|]. intros K. apply O in K. discriminate.
Qed.
Lemma first_only c m : ~ fine pa force c -> complaint pa help c m -> first_complaint pa force help [c] m.
Proof. intros N C. exists [], c, []. split; [reflexivity|]. split; [constructor|]. split; assumption. Qed.
(** the hints *)
Fixpoint texts (l : list ipp_value) : string := match l with [] => "" | [v] => value_text v | v :: l' => value_text v ++ ", " ++ texts l' end%string.
Lemma texts_glue l : texts l = glue ", " (map value_text l).
Proof. induction l as [|v l IH]; [reflexivity|]. cbn [texts map glue]. rewrite IH. destruct l; reflexivity. Qed.
Lemma value_text_shown v : (exists t, (t = TStr \/ t = TInt \/ t = TRange) /\ has_type t v = true) -> shown v (value_text v).
Proof.
  intros (t & [ -> | [ -> | -> ] ] & H); destruct v; try discriminate H; cbn [value_text]; [apply shown_text|apply shown_number, decimal_int|apply shown_range; apply decimal_int].
Qed.
Lemma supported_hint s : (forall v, In v (values (s_name s ++ "-supported") pa) -> shown v (value_text v)) -> offered pa s ->
  exists ts, Forall2 shown (values (s_name s ++ "-supported") pa) ts /\ supportedStr pa s = glue ", " ts.
Proof.
  intros H [a O]. exists (map value_text (values (s_name s ++ "-supported") pa)). split.
  - revert H. generalize (values (s_name s ++ "-supported") pa). induction l as [|v l IH]; intros H; constructor; [apply H; left; reflexivity|apply IH; intros x I; apply H; right; exact I].
  - unfold supportedStr, values. change ipp_attr with (Z * ipp_value)%type in *. rewrite O. destruct a as [t v]. destruct v; try reflexivity. exact (texts_glue l).
Qed.
Definition plain_type (t : vtype) : Prop := t = TStr \/ t = TInt \/ t = TRange.
Lemma typed_shown s : well_typed pa -> In s choices -> plain_type (s_type s) -> forall v, In v (values (s_name s ++ "-supported") pa) -> shown v (value_text v).
Proof. intros [W _] Hs T v I. apply value_text_shown. exists (s_type s). split; [exact T|]. specialize (W s Hs). unfold typed in W. rewrite Forall_forall in W. exact (W v I). Qed.
Lemma listed_hint s which hint : well_typed pa -> In s choices -> plain_type (s_type s) -> hint = ("Valid values" ++ which ++ " are: " ++ supportedStr pa s)%string ->
  offered pa s -> hinted pa s (Listed which) hint.
Proof. intros W Hs T -> O. destruct (supported_hint s (typed_shown s W Hs T) O) as (ts & F & E). exists ts. split; [exact F|]. rewrite E. reflexivity. Qed.
Lemma copies_hint : well_typed pa -> offered pa s_copies -> hinted pa s_copies (Listed "") (valid_values (supportedStr pa s_copies)).
Proof.
  intros [_ W] O. destruct (supported_hint s_copies) as (ts & F & E); [|exact O|exists ts; split; [exact F|]; rewrite E; reflexivity].
  intros v I. apply value_text_shown. exists TRange. split; [auto|]. destruct O as [a O]. specialize (W a O). unfold values in I. cbn [s_name s_copies] in *. change ipp_attr with (Z * ipp_value)%type in *. rewrite O in I. destruct a as [t x]. cbn [snd] in W. destruct x; try discriminate W. destruct I as [<-|[]]. reflexivity.
Qed.
Lemma str_eqb x s : value_eqb x (VStr s) = true <-> x = VStr s.
Proof. destruct x; cbn; split; intros H; try discriminate; try (destruct l; discriminate); [apply String.eqb_eq in H; congruence|injection H as ->; apply String.eqb_refl]. Qed.
Lemma ready_hint : well_typed pa -> offered pa s_media -> hinted pa s_media Ready (valid_values (media_supportedStr pa)).
Proof.
  intros [W _] [a O]. assert (T : typed TStr "media-supported" pa) by exact (W s_media ltac:(is_choice)). unfold hinted. cbv zeta. cbn [s_name s_media String.append] in *. set (ready := values "media-ready" pa).
  assert (G : forall l, Forall (fun v => has_type TStr v = true) l -> exists ts, Forall2 (shown_ready ready) l ts /\ preferred_texts ready l = glue ", " ts).
  { induction l as [|v l IH]; intros F; [exists []; split; [constructor|reflexivity]|]. inversion F as [|? ? F1 F2]; subst. destruct (IH F2) as (ts & F3 & E). destruct v; try discriminate F1.
    set (b := existsb (fun x => value_eqb x (VStr s)) ready). exists ((if b then s ++ "(ready)" else s)%string :: ts). split.
    - constructor; [|exact F3]. exists s. split; [constructor|]. unfold b. destruct (existsb _ ready) eqn:X; [left|right]; (split; [|reflexivity]).
      + apply existsb_exists in X. destruct X as (x & I & X). apply str_eqb in X. congruence.
      + intros I. rewrite <- not_true_iff_false in X. apply X, existsb_exists. exists (VStr s). split; [exact I|]. apply str_eqb. reflexivity.
    - cbn [preferred_texts value_text]. fold b. rewrite E. inversion F3; subst; cbn [glue]; destruct b; rewrite ?append_assoc, ?append_nil_r; reflexivity. }
  destruct (G _ T) as (ts & F & E). exists ts. split; [exact F|]. rewrite <- E. unfold media_supportedStr, valid_values, ready, values. change ipp_attr with (Z * ipp_value)%type in *. rewrite O. destruct a as [t v].
  assert (L : forall x : ipp_value, as_list x = match x with VSet l => l | _ => [x] end) by reflexivity. rewrite L.
  replace (match map_get "media-ready" pa with Some (_, r) => as_list r | None => [] end) with (match map_get "media-ready" pa with None => [] | Some (_, VSet l) => l | Some (_, v0) => [v0] end); [destruct v; reflexivity|].
  destruct (map_get "media-ready" pa) as [[t' r]|]; [destruct r; reflexivity|reflexivity].
Qed.
Lemma dec_decimal z : 0 <= z -> decimal z (dec_string z).
Proof. intros H. pose proof (decimal_int z) as D. unfold int_text in D. destruct (Z.ltb_spec z 0); [lia|exact D]. Qed.
Lemma dpi_hint l : unsigned_resolutions pa -> getSupported pa s_resolution = Ok l -> hinted pa s_resolution Dpi (valid_values (resolution_list l)).
Proof.
  intros U H. unfold getSupported in H. apply getList_values in H. destruct H as [-> _]. unfold hinted. cbv zeta. cbn [s_name s_resolution String.append]. unfold unsigned_resolutions in U. revert U. generalize (values "printer-resolution-supported" pa). intros l U.
  exists (map as_text (filter in_dpi l)). split.
  - induction l as [|v l IH]; [constructor|]. assert (U' : forall x y u, In (VRes x y u) l -> 0 <= x /\ 0 <= y) by (intros x y u I; apply (U x y u); right; exact I). specialize (IH U'). cbn [filter]. destruct v; cbn [in_dpi]; try exact IH.
    match goal with |- context [?u =? 3] => destruct (Z.eqb_spec u 3) as [->|]; [|exact IH] end. cbn [map]. constructor; [|exact IH]. destruct (U x y 3) as [Ux Uy]; [left; reflexivity|]. cbn [as_text]. apply shown_res; apply dec_decimal; assumption.
  - unfold valid_values, resolution_list. f_equal. rewrite texts_concat. change dpi with in_dpi. clear U. destruct (filter in_dpi l) as [|v r] eqn:F; [reflexivity|]. assert (V : in_dpi v = true) by (apply (proj1 (filter_In in_dpi v l)); rewrite F; left; reflexivity).
    cbn [map]. cbv iota. rewrite concat_glue. destruct v; try discriminate V. set (t := glue "" _). assert (N : t <> ""%string).
    { unfold t. cbn [as_text glue]. destruct (dec_string x); [|destruct r; discriminate]. destruct r; discriminate. }
    destruct (String.eqb_spec t ""); [contradiction|reflexivity].
Qed.
Lemma named_hint q names : getSupported pa s_printQuality = Ok q -> aliases q = Ok names -> hinted pa s_printQuality Named (valid_values (join_string names ", ")).
Proof.
  intros H. unfold getSupported in H. apply getList_values in H. destruct H as [-> T]. cbn [s_name s_printQuality s_type] in *. intros A. exists names. split; [|rewrite join_glue; reflexivity].
  cbn [s_name s_printQuality]. revert names A T. generalize (values ("print-quality" ++ "-supported") pa). induction l as [|v l IH]; intros names A T; cbn [aliases] in A; [injection A as <-; constructor|].
  bind_inv A as a A1 A. bind_inv A as r R A. injection A as <-. inversion T as [|? ? T1 T2]; subst. constructor; [|exact (IH r R T2)]. destruct v; try discriminate T1. cbn [v_int] in A1. exists z. split; [|reflexivity].
  unfold ipp_qualities. destruct (Z.eqb_spec z 3); [injection A1 as <-; subst; cbn; tauto|]. destruct (Z.eqb_spec z 4); [injection A1 as <-; subst; cbn; tauto|]. destruct (Z.eqb_spec z 5); [injection A1 as <-; subst; cbn; tauto|discriminate].
Qed.
Lemma says_choice g words s v h hint (set : job -> outcome job) j : basic v -> In s choices -> j_printerAttrs j = pa -> (forall j', set j = Ok j' -> j_printerAttrs j' = j_printerAttrs j) ->
  (offered pa s -> hinted pa s h hint) -> says (when g (Asks words s v h)) (say_or_fail g words hint (isSupported pa s) (choice_supports pa s v) force set j).
Proof.
  intros Hv Hs Hj Hk Hh r H. unfold say_or_fail in H. destruct g; cbn [when].
  - bind_inv H as ok O H. pose proof (choice_spec _ _ _ _ Hv O) as Sp. rewrite <- (acceptable_choice pa s v Hs) in Sp. destruct (ok || force) eqn:B.
    + bind_inv H as j' J H. injection H as <-. split; [rewrite (Hk _ J); exact Hj|]. constructor; [|constructor]. cbn [fine]. destruct ok; [right; apply Sp; reflexivity|left; exact B].
    + injection H as <-. apply orb_false_iff in B. destruct B as [-> B]. apply first_only; [|apply complaint_refusal; exact Hh]. cbn [fine]. intros [K|K]; [congruence|]. apply Sp in K. discriminate.
  - injection H as <-. split; [exact Hj|constructor].
Qed.
Hypothesis (W : well_typed pa) (U : unsigned_resolutions pa).
Lemma set_job_keeps s v j j' : set_job j s v = Ok j' -> j_printerAttrs j' = j_printerAttrs j.
Proof. intros H. exact (made_attrs _ _ _ _ (made_job _ _ _ _ H)). Qed.
Lemma set_op_keeps s v j j' : set_op j s v = Ok j' -> j_printerAttrs j' = j_printerAttrs j.
Proof. intros H. exact (made_attrs _ _ _ _ (made_op _ _ _ _ H)). Qed.
Lemma says_str_setting st i s words j : doc_of i = words -> In s choices -> plain_type (s_type s) -> j_printerAttrs j = pa ->
  says (asks (given st i) words s (text st i) (Listed "")) (say_str_setting st i s force j).
Proof.
  intros <- Hs T Hj. unfold say_str_setting, say_str. rewrite Hj. apply says_choice; [apply basic_str|exact Hs|exact Hj|apply set_job_keeps|]. apply listed_hint; [exact W|exact Hs|exact T|reflexivity].
Qed.
Lemma says_int_setting st i s words j : doc_of i = words -> In s choices -> plain_type (s_type s) -> j_printerAttrs j = pa ->
  says (asks (given st i) words s (number st i) (Listed "")) (say_int_setting st i s force j).
Proof.
  intros <- Hs T Hj. unfold say_int_setting, say_int. rewrite Hj. apply says_choice; [apply basic_int|exact Hs|exact Hj|apply set_job_keeps|]. apply listed_hint; [exact W|exact Hs|exact T|reflexivity].
Qed.
Lemma says_side st s which j : In s choices -> plain_type (s_type s) -> j_printerAttrs j = pa ->
  says (when (given st 21) (Asks "-m, --margin <int>" s (number st 21) (Listed (" for " ++ which ++ " margin"))))
    (say_int st 21 s (doc_of 21) ("Valid values for " ++ which ++ " margin are: " ++ supportedStr pa s)%string force j).
Proof.
  intros Hs T Hj. unfold say_int. rewrite Hj. change (doc_of 21) with "-m, --margin <int>"%string. apply says_choice; [apply basic_int|exact Hs|exact Hj|apply set_job_keeps|]. apply listed_hint; [exact W|exact Hs|exact T|].
  rewrite !append_assoc. reflexivity.
Qed.
Ltac plain := first [left; reflexivity|right; left; reflexivity].
Lemma says_margin st j : j_printerAttrs j = pa ->
  says (when (given st 21) AllMargins
    ++ when (given st 21) (Asks "-m, --margin <int>" s_topMargin (number st 21) (Listed " for top margin"))
    ++ when (given st 21) (Asks "-m, --margin <int>" s_bottomMargin (number st 21) (Listed " for bottom margin"))
    ++ when (given st 21) (Asks "-m, --margin <int>" s_leftMargin (number st 21) (Listed " for left margin"))
    ++ when (given st 21) (Asks "-m, --margin <int>" s_rightMargin (number st 21) (Listed " for right margin"))) (say_margin st force j).
Proof.
  intros Hj. unfold say_margin. cbv zeta. rewrite Hj.
  assert (S4 : says (when (given st 21) (Asks "-m, --margin <int>" s_topMargin (number st 21) (Listed " for top margin"))
    ++ when (given st 21) (Asks "-m, --margin <int>" s_bottomMargin (number st 21) (Listed " for bottom margin"))
    ++ when (given st 21) (Asks "-m, --margin <int>" s_leftMargin (number st 21) (Listed " for left margin"))
    ++ when (given st 21) (Asks "-m, --margin <int>" s_rightMargin (number st 21) (Listed " for right margin")))
    (try! j := say_int st 21 s_topMargin (doc_of 21) ("Valid values for " ++ "top" ++ " margin are: " ++ supportedStr pa s_topMargin)%string force j in
     try! j := say_int st 21 s_bottomMargin (doc_of 21) ("Valid values for " ++ "bottom" ++ " margin are: " ++ supportedStr pa s_bottomMargin)%string force j in
     try! j := say_int st 21 s_leftMargin (doc_of 21) ("Valid values for " ++ "left" ++ " margin are: " ++ supportedStr pa s_leftMargin)%string force j in
     say_int st 21 s_rightMargin (doc_of 21) ("Valid values for " ++ "right" ++ " margin are: " ++ supportedStr pa s_rightMargin)%string force j)).
  { apply says_bind; [exact (says_side st s_topMargin "top" j ltac:(is_choice) ltac:(plain) Hj)|intros j1 H1]. apply says_bind; [exact (says_side st s_bottomMargin "bottom" j1 ltac:(is_choice) ltac:(plain) H1)|intros j2 H2].
    apply says_bind; [exact (says_side st s_leftMargin "left" j2 ltac:(is_choice) ltac:(plain) H2)|intros j3 H3]. exact (says_side st s_rightMargin "right" j3 ltac:(is_choice) ltac:(plain) H3). }
  unfold given in *. destruct (a_set st 21); [|intros r H; injection H as <-; split; [exact Hj|constructor]].
  destruct (negb force && _) eqn:B.
  - intros r H. apply (f_equal (fun x => match x with Ok t => t | _ => r end)) in H. cbv beta iota in H. rewrite <- H. clear H S4. apply andb_prop in B. destruct B as [B1 B2]. exists [], AllMargins. eexists. split; [reflexivity|]. split; [constructor|]. split; [|reflexivity].
    cbn [fine]. intros [F|F]; [rewrite F in B1; discriminate|]. rewrite !(proj2 (offered_spec _)) in B2 by (apply F; cbn; tauto). discriminate.
  - assert (Fi : fine pa force AllMargins).
    { cbn [fine]. destruct force; [left; reflexivity|right]. cbn [negb andb] in B. rewrite !orb_false_iff, !negb_false_iff in B. destruct B as [[[B1 B2] B3] B4]. intros s [<-|[<-|[<-|[<-|[]]]]]; apply offered_spec; assumption. }
    intros r H. specialize (S4 r H). change (when true AllMargins) with [AllMargins]. cbn [app]. destruct r as [j'|m].
    + destruct S4 as [P F]. split; [exact P|]. constructor; [exact Fi|exact F].
    + destruct S4 as (before & c & after & E & F & K). exists (AllMargins :: before), c, after. split; [cbn [app]; f_equal; exact E|]. split; [constructor; [exact Fi|exact F]|exact K].
Qed.
Lemma says_res g words doc x y hint j : words = doc -> j_printerAttrs j = pa -> hinted pa s_resolution Dpi hint ->
  says (when g (Asks words s_resolution (VRes x y 3) Dpi)) (say_res g doc hint x y force j).
Proof. intros -> Hj Hh. unfold say_res. rewrite Hj. apply says_choice; [apply basic_res|is_choice|exact Hj|apply set_job_keeps|intros _; exact Hh]. Qed.
Ltac next j := match goal with |- says _ (sbind _ _) => apply says_bind; [|intros j ?] end.
Ltac str := apply says_str_setting; [reflexivity|is_choice|plain|assumption].
Ltac int := apply says_int_setting; [reflexivity|is_choice|plain|assumption].
Lemma says_pages st j : j_printerAttrs j = pa -> says (when (given st 4) (Ranges (as_str (a_val st 4)))) (say_pages help st j).
Proof.
  intros Hj r H. unfold say_pages, given in *. destruct (a_set st 4); cbn [when]; [|injection H as <-; split; [exact Hj|constructor]].
  bind_inv H as l E H. pose proof (parse_spec (as_str (a_val st 4))) as P. rewrite E in P. destruct l as [|x l].
  - injection H as <-. apply first_only; [|reflexivity]. intros (rgs & R). exact (P rgs R).
  - bind_inv H as j' J H. injection H as <-. split; [rewrite (set_job_keeps _ _ _ _ J); exact Hj|]. constructor; [|constructor]. eexists. exact P.
Qed.
Lemma says_copies st j : j_printerAttrs j = pa -> says (asks (given st 5) "--copies <int>" s_copies (number st 5) (Listed "")) (say_copies st pa force j).
Proof.
  intros Hj. unfold say_copies. apply says_guard. intros f F. cbv zeta. rewrite Hj. unfold asks. change (ipp_doc 5 s_copies) with ("--copies <int>" ++ " (ipp: " ++ s_name s_copies ++ ")")%string.
  generalize ("--copies <int>" ++ " (ipp: " ++ s_name s_copies ++ ")")%string. intros words r H. unfold say_or_fail, given, number in *. destruct (a_set st 5); cbn [when]; [|injection H as <-; split; [exact Hj|constructor]].
  bind_inv H as ok O H. pose proof (range_spec _ _ _ O) as Sp. assert (Fs : f = true <-> force = true \/ raster_printer pa).
  { destruct force; [injection F as <-; tauto|]. rewrite (raster_printer_spec _ _ F). intuition discriminate. }
  destruct (ok || f) eqn:B.
  - bind_inv H as j' J H. injection H as <-. split; [rewrite (set_job_keeps _ _ _ _ J); exact Hj|]. constructor; [|constructor]. cbn [fine]. apply orb_prop in B. destruct B as [B|B].
    + right. left. apply Sp. exact B.
    + apply Fs in B. destruct B as [B|B]; [left; exact B|right; right; split; [reflexivity|exact B]].
  - injection H as <-. apply orb_false_iff in B. destruct B as [-> ->]. apply first_only.
    + cbn [fine]. intros [K|[K|[_ K]]]; [|apply Sp in K; discriminate|]; (assert (X : false = true) by (apply Fs; auto); discriminate).
    + apply complaint_refusal. apply copies_hint. exact W.
Qed.
Lemma says_quality st j : j_printerAttrs j = pa -> forall names, (let! q := getSupported pa s_printQuality in aliases q) = Ok names ->
  says (when (given st 13) (Asks "-q, --quality <choice>" s_printQuality (number st 13) Named)) (say_int st 13 s_printQuality (doc_of 13) (valid_values (join_string names ", ")) force j).
Proof.
  intros Hj names H. bind_inv H as q Q H. unfold say_int. rewrite Hj. change (doc_of 13) with "-q, --quality <choice>"%string. apply says_choice; [apply basic_int|is_choice|exact Hj|apply set_job_keeps|]. intros _. exact (named_hint q names Q H).
Qed.
Lemma says_format st j : j_printerAttrs j = pa -> says (asks (given st 15) "--format <string>" s_documentFormat (text st 15) (Listed "")) (say_format st force j).
Proof.
  intros Hj. unfold say_format. cbv zeta. rewrite Hj. apply (says_choice (given st 15) (ipp_doc 15 s_documentFormat)); [apply basic_str|is_choice|exact Hj|apply set_op_keeps|]. apply listed_hint; [exact W|is_choice|plain|reflexivity].
Qed.
Lemma says_later st j : j_printerAttrs j = pa ->
  says (asks (given st 8) "-r, --resolution <int>" s_resolution (VRes (as_int (a_val st 8%nat)) (as_int (a_val st 8%nat)) 3) Dpi
  ++ asks (given st 9 && given st 10) "-rx, --resolution-x <int> and/or -ry, --resolution-y <int>" s_resolution
       (VRes (as_int (a_val st 9%nat)) (as_int (a_val st 10%nat)) 3) Dpi
  ++ asks (given st 11) "-s, --sides <string>" s_sides (text st 11) (Listed "")
  ++ asks (given st 12) "-c, --color-mode <string>" s_colorMode (text st 12) (Listed "")
  ++ when (given st 13) (Asks "-q, --quality <choice>" s_printQuality (number st 13) Named)
  ++ asks (given st 14) "--scaling <string>" s_scaling (text st 14) (Listed "")
  ++ asks (given st 15) "--format <string>" s_documentFormat (text st 15) (Listed "")
  ++ asks (given st 17) "--media-type <string>" s_mediaType (text st 17) (Listed "")
  ++ asks (given st 18) "--media-source <string>" s_mediaSource (text st 18) (Listed "")
  ++ asks (given st 19) "--output-bin <string>" s_outputBin (text st 19) (Listed "")
  ++ asks (given st 20) "--finishings <int>" s_finishings (number st 20) (Listed "")
  ++ (when (given st 21) AllMargins
  ++ when (given st 21) (Asks "-m, --margin <int>" s_topMargin (number st 21) (Listed " for top margin"))
  ++ when (given st 21) (Asks "-m, --margin <int>" s_bottomMargin (number st 21) (Listed " for bottom margin"))
  ++ when (given st 21) (Asks "-m, --margin <int>" s_leftMargin (number st 21) (Listed " for left margin"))
  ++ when (given st 21) (Asks "-m, --margin <int>" s_rightMargin (number st 21) (Listed " for right margin")))
  ++ asks (given st 22) "-tm, --top-margin <int>" s_topMargin (number st 22) (Listed "")
  ++ asks (given st 23) "-bm, --bottom-margin <int>" s_bottomMargin (number st 23) (Listed "")
  ++ asks (given st 24) "-lm, --left-margin <int>" s_leftMargin (number st 24) (Listed "")
  ++ asks (given st 25) "-rm, --right-margin <int>" s_rightMargin (number st 25) (Listed "")) (say_later st force j).
Proof.
  intros Hj. unfold say_later. cbv zeta. rewrite Hj. apply says_guard. intros l L. pose proof (dpi_hint l U L) as D.
  next j1; [apply says_res; [reflexivity|exact Hj|exact D]|]. next j2; [apply says_res; [reflexivity|assumption|exact D]|]. next j3; [str|]. next j4; [str|].
  replace (j_printerAttrs j4) with pa by (symmetry; assumption). apply says_guard. intros names N. next j5; [match goal with |- context [join_string names ", "] => apply says_quality; assumption end|]. next j6; [str|]. next j7; [apply says_format; assumption|]. next j8; [str|]. next j9; [str|]. next j10; [str|]. next j11; [int|].
  next j12; [apply says_margin; assumption|]. next j13; [int|]. next j14; [int|]. next j15; [int|]. int.
Qed.
Lemma says_options st j : j_printerAttrs j = pa -> says (checks st) (say_options help st pa force j).
Proof.
  intros Hj. unfold say_options, checks. next j1; [apply says_pages; exact Hj|]. unfold say_other. next j2; [apply says_copies; assumption|].
  next j3.
  { unfold say_collated. cbv zeta. replace (j_printerAttrs j2) with pa by (symmetry; assumption). apply (says_choice (given st 6) (ipp_doc 6 s_multipleDocumentHandling)); [apply basic_str|is_choice|assumption|apply set_job_keeps|]. apply listed_hint; [exact W|is_choice|plain|reflexivity]. }
  next j4.
  { unfold say_str. replace (j_printerAttrs j3) with pa by (symmetry; assumption). apply (says_choice (given st 7) (ipp_doc 7 s_media)); [apply basic_str|is_choice|assumption|apply set_job_keeps|]. intros O. apply ready_hint; [exact W|exact O]. }
  fold (given st 9) (given st 10). destruct (Bool.eqb (given st 9) (given st 10)) eqn:B; cbn [negb].
  - apply Bool.eqb_prop in B. intros r HH. pose proof (says_later st j4 ltac:(assumption) r HH) as K. rewrite <- !app_assoc in K. destruct r as [j'|m].
    + destruct K as [P F]. split; [exact P|]. constructor; [exact B|exact F].
    + destruct K as (before & c & after & E & F & K'). exists (BothAxes (given st 9) (given st 10) :: before), c, after. split; [cbn [app]; f_equal; exact E|]. split; [constructor; [exact B|exact F]|exact K'].
  - intros r HH. injection HH as <-. exists [], (BothAxes (given st 9) (given st 10)). eexists. split; [reflexivity|]. split; [constructor|]. split; [|reflexivity]. cbn [fine]. intros E. rewrite E, Bool.eqb_reflx in B. discriminate.
Qed.
End refusals.

(** Options are accepted only if all is fine, and otherwise the message is about the first that
    is not, with the values the printer supports. *)
Theorem C100_options help st pa force j r : j_printerAttrs j = pa -> well_typed pa -> unsigned_resolutions pa -> say_options help st pa force j = Ok r ->
  match r with inl _ => Forall (fine pa force) (checks st) | inr m => first_complaint pa force help (checks st) m end.
Proof. intros Hj W U H. pose proof (says_options pa force help W U st j Hj r H) as K. destruct r; [exact (proj2 K)|exact K]. Qed.
(** The client: nothing is sent then but what opened the printer.
    PARTIAL: as in C92, for printers whose attributes are of the types they should have and
    whose qualities are known, and page numbers below 2^64. *)
Theorem C100_client_partial pdf e junk name args rs addr file fmt ev pa id j : line args "print" rs [addr; file] -> present rs "--help" = false -> open_printer e addr = (ev, Ok (None, pa, id)) ->
  input_type e rs file fmt -> starts_from e rs pa j -> wf_job (j_jobAttrs j) -> well_typed pa -> known_qualities pa -> unsigned_resolutions pa ->
  (forall a d b n, asked rs "--pages" = Some (a ++ d ++ b)%string -> digits_of d n -> n < 2 ^ 64) ->
  exists st, print_read junk rs st /\
    (Forall (fine pa (present rs "--force")) (checks st)
     \/ exists m, first_complaint pa (present rs "--force") (print_help name) (checks st) m /\ say_client pdf e junk name args = (ev, Ok (mkSaid [] m 1))).
Proof.
  intros H Hh Ho I S Hw T Q Un Hn. destruct (say_print_line pdf e junk name _ _ _ _ H Hh) as (st & R & V & E). exists st. split; [exact R|]. pose proof (starts_attrs _ _ _ _ S) as Hp.
  destruct (flagged_job junk rs st j R) as (F1 & _ & _ & _ & _ & _ & _ & F8 & _).
  assert (X : exists r, say_options (print_help name) st pa (present rs "--force") (flagged st j) = Ok r).
  { destruct (C75_standard_partial st pa (present rs "--force") (flagged st j)) as [r A]; [congruence|rewrite F1; exact Hw|exact T|exact Q| |].
    - unfold given. rewrite (on4 junk rs st R). unfold present. intros Hg a d b n Ea. destruct (asked rs "--pages") as [t|] eqn:A; [|discriminate]. apply (Hn a d b n). rewrite (says4 junk rs st t R A) in Ea. cbn in Ea. rewrite Ea. reflexivity.
    - rewrite <- (erase_options (print_help name)) in A. unfold erase in A. bind_inv A as o O A. exists o. exact O. }
  destruct X as [r X]. pose proof (C100_options (print_help name) st pa (present rs "--force") (flagged st j) r ltac:(congruence) T Un X) as K. destruct r as [j'|m]; [left; exact K|right]. exists m. split; [exact K|].
  assert (P : say_prepare (print_help name) e st pa = Ok (inr m)).
  { destruct S as (jc & C & S). unfold say_prepare. rewrite C. cbn [bind]. rewrite (off28 junk rs st R). replace (if present rs "--save" then Ok jc else _) with (Ok j) by (destruct (present rs "--save"); congruence). cbn [bind]. cbv zeta.
    rewrite (proj2 (input_format_type junk e rs st file fmt R V) I), (off2 junk rs st R). match goal with |- context [say_options ?h ?a ?b ?c ?d] => change (say_options h a b c d) with (say_options h a b c (flagged st j)) end. rewrite X. reflexivity. }
  rewrite E, Ho. unfold ebind. cbn [fst snd]. unfold say_print_command. cbn [pr_attrs]. rewrite ebind_pure, P. cbn [pure fst snd]. rewrite app_nil_r. reflexivity.
Qed.
(** The values listed for --collated-copies are not values the option takes. *)
Theorem C100_collated_refuted help st pa j tag k : j_printerAttrs j = pa -> k <> "yes"%string -> k <> "no"%string ->
  given st 4 = false -> given st 5 = false -> given st 6 = true ->
  map_get "multiple-document-handling-supported" pa = Some (tag, VStr k) ->
  k <> (if (as_int (a_val st 6%nat) =? 1)%Z then "separate-documents-collated-copies" else "separate-documents-uncollated-copies")%string ->
  forall f, supportsPrinterRaster pa = Ok f ->
  say_options help st pa false j = Ok (inr ("Argument --collated-copies <choice> (ipp: multiple-document-handling) has an invalid value. " ++ line_feed ++ "Valid values are: " ++ k ++ line_feed)%string)
  /\ ~ client_takes "--collated-copies" k.
Proof.
  intros Hj Ny Nn G4 G5 G6 M N f F. split.
  - unfold given in *. unfold say_options, say_pages. rewrite G4. unfold sbind at 1. cbn [bind]. unfold say_other, say_copies. rewrite F. cbn [bind]. cbv zeta. unfold say_or_fail at 1. rewrite G5. unfold sbind at 1. cbn [bind].
    unfold say_collated. cbv zeta. unfold say_or_fail. rewrite G6, Hj. unfold choice_supports, getSupported, attrs_getList. cbn [s_name s_multipleDocumentHandling s_type].
    change (("multiple-document-handling" ++ "-supported"))%string with "multiple-document-handling-supported"%string. change ipp_attr with (Z * ipp_value)%type in *. rewrite M. cbn.
    match goal with |- context [String.eqb k ?x] => destruct (String.eqb_spec k x); [contradiction|] end. cbn. unfold refusal, isSupported, map_has, valid_values, supportedStr. cbn [s_name s_multipleDocumentHandling].
    change (("multiple-document-handling" ++ "-supported"))%string with "multiple-document-handling-supported"%string. change ipp_attr with (Z * ipp_value)%type in *. rewrite M. cbn [value_text]. reflexivity.
  - intros (C & _). specialize (C eq_refl). cbn in C. destruct C as [C|[C|[]]]; congruence.
Qed.

(** ** Examples *)
Definition told (s : list event * outcome said) : option (string * string * Z) :=
  match snd s with Ok s => Some (string_of_list_ascii (s_out s), s_err s, s_code s) | _ => None end.
Definition no_pdf (_ : string) : string := "damaged".
(** a world with this error of the conversions and these job groups in the last response; a
    file with the attributes of a printer *)
Definition say_world (error : option string) (groups : list ipp_attrs) : client_env :=
  let e := client_world 4 in let w := e_world e in
  let reply n g pa := match fst (encodeMsg 1 (mkMsg n 1 1 [("attributes-charset", (tCharset, VStr "utf-8"))]%string g pa)) with Ok b => b | _ => [] end in
  mkEnv (mkWorld (w_user w) (w_what w) (w_post w) (fun _ _ _ => Ok error) (fun _ _ _ _ _ _ => Response (reply 1 groups [])) (w_temp w))
    (fun f => if String.eqb f "/printer" then Some (reply 0 [] (client_printer 4)) else e_files e f) (e_parse e) (e_overrides e) (e_cwd e) (e_pages e).
Definition run (e : client_env) (args : list string) : option (string * string * Z) := told (say_client no_pdf e junk0 "ippclient" args).
Definition id_options : list string := ["--print-job-id"; "-r"; "300"]%string.
Example C99_example :
  run (client_world 4) (ex_args good_options) = Some ("", "", 0)%string /\
  run (client_world 4) ["cancel-job"; cmd_addr]%string = Some ("", "Please specify a job id with --id." ++ line_feed, 1)%string /\
  run (client_world 4) ["set-attrs"; cmd_addr; "printer-location=here,x"]%string = Some ("", "Bad key:value: x" ++ line_feed, 1)%string /\
  run (client_world 4) ["info"; "-v"; "file:///x"]%string = Some ("", "Could not get printer attributes: Failed to open fake-printer file." ++ line_feed, 1)%string /\
  run (say_world (Some "no"%string) []) (ex_args good_options) = Some ("", "Print failed: no" ++ line_feed, 1)%string.
Proof. vm_compute. repeat split. Qed.
Example C99_printed_example :
  line (ex_args id_options) "print" [("--print-job-id", ""); ("--resolution", "300")]%string [cmd_addr; "doc.pdf"]%string /\ ~ file_printer cmd_addr /\
  run (say_world None [[("job-id", (tInteger, VInt 42))]]%string) (ex_args id_options) = Some ("Job submitted successfully, with id: 42" ++ line_feed, "", 0)%string /\
  run (say_world None [[("job-id", (tInteger, VInt 42))]]%string) (ex_args good_options) = Some ("", "", 0)%string.
Proof.
  split; [line_example print_flags print_values 2%nat id_options|]. split; [intros [t H]; discriminate H|]. vm_compute. repeat split.
Qed.
Example C99_no_id_example : run (say_world None [[("job-state", (tEnum, VInt 5))]]%string) (ex_args id_options) = Some ("Job submitted successfully, with id: 0" ++ line_feed, "", 0)%string.
Proof. vm_compute. reflexivity. Qed.
Example C99_file_example :
  line ["print"; "file:///printer"; "doc.pdf"]%string "print" [] ["file:///printer"; "doc.pdf"]%string /\ file_printer "file:///printer" /\
  run (say_world None []) ["print"; "file:///printer"; "doc.pdf"]%string = Some ("", "Wrote /tmp/ippclient-debug-doc.pdf.urf" ++ line_feed, 0)%string /\
  run (say_world (Some "no"%string) []) ["print"; "file:///printer"; "doc.pdf"]%string = Some ("", "", 0)%string.
Proof. split; [line_example print_flags print_values 2%nat (@nil string)|]. split; [exists "/printer"%string; reflexivity|]. vm_compute. repeat split. Qed.
Definition nl : string := line_feed.
Example C100_example :
  run (client_world 4) (ex_args ["-r"; "1200"]%string) = Some ("", "Argument -r, --resolution <int> (ipp: printer-resolution) has an invalid value. " ++ nl ++ "Valid values are: 300x300dpi600x600dpi" ++ nl, 1)%string /\
  run (client_world 4) (ex_args ["-m"; "300"]%string) = Some ("", "Argument -m, --margin <int> (ipp: margin-*) is not supported by this printer." ++ nl, 1)%string /\
  run (client_world 4) (ex_args ["-q"; "high"]%string) = Some ("", "Argument -q, --quality <choice> has an invalid value. " ++ nl ++ "Valid values are: normal" ++ nl, 1)%string /\
  run (client_world 4) (ex_args ["-tm"; "5"; "-s"; "both"]%string) = Some ("", "Argument -s, --sides <string> (ipp: sides) has an invalid value. " ++ nl ++ "Valid values are: one-sided, two-sided-long-edge" ++ nl, 1)%string /\
  run (client_world 4) (ex_args ["-rx"; "600"]%string) = Some ("", "Resolution must be specified for both dimensions." ++ nl ++ nl ++ print_help "ippclient" ++ nl ++ nl, 1)%string.
Proof. vm_compute. repeat split. Qed.
(** the hypotheses of the theorem: C70_example, and *)
Example C100_hypotheses_example : unsigned_resolutions (client_printer 4) /\ input_type (client_world 4) [("--sides", "both")]%string "doc.pdf" "application/pdf" /\
  line (ex_args ["-s"; "both"]%string) "print" [("--sides", "both")]%string [cmd_addr; "doc.pdf"]%string /\ starts_from (client_world 4) [("--sides", "both")]%string (client_printer 4) (new_job (client_printer 4) []).
Proof.
  split; [intros x y u [H|[H|[]]]; injection H as <- <- <-; lia|]. split; [split; [discriminate|]; vm_compute; repeat split; discriminate|]. split; [line_example print_flags print_values 2%nat ["-s"; "both"]%string|].
  exists (new_job (client_printer 4) []). split; vm_compute; reflexivity.
Qed.
(** loaded media are marked *)
Example C100_ready_example : media_supportedStr [("media-ready", (tKeyword, VStr "b")); ("media-supported", (tKeyword, VSet [VStr "a"; VStr "b"]))]%string = "a, b(ready)"%string.
Proof. reflexivity. Qed.
Example C100_collated_example :
  let pa := ("multiple-document-handling-supported", (tKeyword, VStr "separate-documents-uncollated-copies"))%string :: client_printer 4 in
  supportsPrinterRaster pa = Ok true /\ given (parsed ["--collated-copies"; "yes"]%string) 6 = true /\
  say_options "" (parsed ["--collated-copies"; "yes"]%string) pa false (new_job pa [])
  = Ok (inr ("Argument --collated-copies <choice> (ipp: multiple-document-handling) has an invalid value. " ++ nl ++ "Valid values are: separate-documents-uncollated-copies" ++ nl)%string).
Proof. vm_compute. repeat split. Qed.
Print Assumptions C99_same.
Print Assumptions C99_reason.
Print Assumptions C99_printed.
Print Assumptions C99_no_id_refuted.
Print Assumptions C99_file_partial.
Print Assumptions C99_file_refuted.
Print Assumptions C100_options.
Print Assumptions C100_client_partial.
Print Assumptions C100_collated_refuted.
