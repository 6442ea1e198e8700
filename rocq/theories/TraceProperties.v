(** C117: what pwg2ppm says, and the pages it leaves when a later one is bad. *)
From Verif Require Import Base BaseLemmas StringModel ParamsModel HeaderModel RasterModel PpmModel HelpModel HelpProperties IppEncProofs TellModel TraceModel.
From Coq Require Import Lia.
Local Open Scope Z_scope.

(** ** Specification *)
Definition said_line (text : string) : string := (text ++ newline)%string.
(** two lines for each page: its number and the description of its header *)
Inductive page_lines : Z -> list string -> string -> Prop :=
| lines_none n : page_lines n [] ""
| lines_page n d ds s : page_lines (n + 1) ds s -> page_lines n (d :: ds) (said_line ("Page " ++ dec_string (n + 1)) ++ said_line d ++ s).
(** the headers of the pages and the files made of them, for a raster file that is complete *)
Inductive pwg_pages_read (prefix : string) : Z -> list byte -> list pwg_hdr -> list (string * list byte) -> Prop :=
| pwg_read_none n : pwg_pages_read prefix n [] [] []
| pwg_read_page n file h body bmp rest hs fs : decode_pwg_hdr file = Ok (h, body) -> raster_to_bmp body (h_BytesPerLine h) (h_Height h) (h_NumColors h) false = Ok (bmp, rest) ->
    pwg_pages_read prefix (n + 1) rest hs fs ->
    pwg_pages_read prefix n file (h :: hs) (write_ppm bmp (h_Width h) (h_Height h) (h_NumColors h) (h_BitsPerColor h) (h_ColorSpace h =? 3) prefix (n + 1) :: fs).
Inductive urf_pages_read (prefix : string) : Z -> list byte -> list urf_hdr -> list (string * list byte) -> Prop :=
| urf_read_none n : urf_pages_read prefix n [] [] []
| urf_read_page n file h body bmp rest hs fs : decode_urf_hdr file = Ok (h, body) ->
    raster_to_bmp body ((u_Width h * (u_BitsPerPixel h / 8)) mod two32) (u_Height h) (u_BitsPerPixel h / 8) true = Ok (bmp, rest) ->
    urf_pages_read prefix (n + 1) rest hs fs ->
    urf_pages_read prefix n file (h :: hs) (write_ppm bmp (u_Width h) (u_Height h) (u_BitsPerPixel h / 8) 8 false prefix (n + 1) :: fs).

(** ** Reading does not depend on what follows *)
Definition steady {A} (f : list byte -> outcome (A * list byte)) : Prop := forall s a r, f s = Ok (a, r) -> forall x, f (s ++ x) = Ok (a, r ++ x).
Lemma steady_bind {A B} (f : list byte -> outcome (A * list byte)) (g : A -> list byte -> outcome (B * list byte)) :
  steady f -> (forall a, steady (g a)) -> steady (fun s => let! (a, r) := f s in g a r).
Proof. intros F G s b r E x. bind_inv E as y E1 E2. destruct y as [a r1]. rewrite (F _ _ _ E1). cbn [bind]. exact (G a _ _ _ E2 x). Qed.
Lemma steady_ret {A} (a : A) : steady (fun s => Ok (a, s)).
Proof. intros s b r E x. injection E as <- <-. reflexivity. Qed.
Lemma steady_u8 : steady get_u8.
Proof. intros s a r E x. destruct s as [|b s]; [discriminate|]. injection E as <- <-. reflexivity. Qed.
Lemma steady_u32 : steady get_u32.
Proof. intros s a r E x. destruct s as [|b1 [|b2 [|b3 [|b4 s]]]]; try discriminate. injection E as <- <-. reflexivity. Qed.
Lemma steady_bytes n : steady (get_bytes n).
Proof.
  intros s a r E x. unfold get_bytes in *. destruct (Z.leb_spec n (Z.of_nat (length s))); [|discriminate]. injection E as <- <-.
  assert (K : n <=? Z.of_nat (length (s ++ x)) = true) by (apply Z.leb_le; rewrite app_length; lia). rewrite K. rewrite firstn_app, skipn_app.
  replace (Z.to_nat n - length s)%nat with 0%nat by lia. cbn [firstn skipn]. rewrite app_nil_r. reflexivity.
Qed.
Lemma steady_line bw c urf : forall f file line l r, decode_line f file line bw c urf = Ok (l, r) -> forall x g, (f <= g)%nat -> decode_line g (file ++ x) line bw c urf = Ok (l, r ++ x).
Proof.
  induction f as [|f IH]; intros file line l r E x g L; [discriminate|]. destruct g as [|g]; [lia|]. assert (L' : (f <= g)%nat) by lia. cbn [decode_line] in *.
  destruct (_ =? bw); [injection E as <- <-; reflexivity|]. bind_inv E as y E1 E2. destruct y as [count f1]. rewrite (steady_u8 _ _ _ E1). cbn [bind].
  destruct (urf && _).
  - bind_inv E2 as w E3 E4. rewrite E3. cbn [bind]. exact (IH _ _ _ _ E4 x g L').
  - destruct (count <? 128); bind_inv E2 as y E3 E4; destruct y as [t f2]; rewrite (steady_bytes _ _ _ _ E3); cbn [bind]; exact (IH _ _ _ _ E4 x g L').
Qed.
Lemma steady_lines bw c urf : forall f file h l r, decode_lines f file bw h c urf = Ok (l, r) -> forall x g, (f <= g)%nat -> decode_lines g (file ++ x) bw h c urf = Ok (l, r ++ x).
Proof.
  induction f as [|f IH]; intros file h l r E x g L; [discriminate|]. destruct g as [|g]; [lia|]. assert (L' : (f <= g)%nat) by lia. cbn [decode_lines] in *.
  destruct (h =? 0); [injection E as <- <-; reflexivity|]. bind_inv E as y E1 E2. destruct y as [rep f1]. rewrite (steady_u8 _ _ _ E1). cbn [bind].
  bind_inv E2 as y E3 E4. destruct y as [line f2]. rewrite (steady_line _ _ _ _ _ _ _ _ E3 x (S (length (f1 ++ x)))) by (rewrite app_length; lia). cbn [bind].
  bind_inv E4 as y E5 E6. destruct y as [rest f3]. rewrite (IH _ _ _ _ E5 x g L'). cbn [bind]. injection E6 as <- <-. reflexivity.
Qed.
Lemma steady_bmp bw h c urf : steady (fun file => raster_to_bmp file bw h c urf).
Proof. intros s a r E x. unfold raster_to_bmp in *. apply (steady_lines _ _ _ _ _ _ _ _ E). rewrite app_length. lia. Qed.
Lemma steady_str n : steady (get_str_field n).
Proof. unfold get_str_field. apply steady_bind; [apply steady_bytes|]. intros a. apply steady_ret. Qed.
Lemma steady_s32 : steady get_s32.
Proof. unfold get_s32. apply steady_bind; [apply steady_u32|]. intros a. apply steady_ret. Qed.
Lemma steady_pwg : steady decode_pwg_hdr.
Proof. unfold decode_pwg_hdr. repeat (apply steady_bind; [first [apply steady_u32|apply steady_s32|apply steady_bytes|apply steady_str]|intros ?]). apply steady_ret. Qed.
Lemma steady_urf : steady decode_urf_hdr.
Proof. unfold decode_urf_hdr. repeat (apply steady_bind; [first [apply steady_u8|apply steady_u32|apply steady_bytes]|intros ?]). apply steady_ret. Qed.
(** ** What was read is a beginning of the file, enough by itself *)
Definition exact {A} (f : list byte -> outcome (A * list byte)) : Prop := forall s a r, f s = Ok (a, r) -> exists p, s = p ++ r /\ f p = Ok (a, []).
Lemma exact_bind {A B} (f : list byte -> outcome (A * list byte)) (g : A -> list byte -> outcome (B * list byte)) :
  steady f -> exact f -> (forall a, exact (g a)) -> exact (fun s => let! (a, r) := f s in g a r).
Proof.
  intros T F G s b r E. bind_inv E as y E1 E2. destruct y as [a r1]. destruct (F _ _ _ E1) as (p & -> & P). destruct (G a _ _ _ E2) as (q & -> & Q).
  exists (p ++ q). rewrite <- app_assoc. split; [reflexivity|]. rewrite (T _ _ _ P). cbn [bind app]. exact Q.
Qed.
Lemma exact_ret {A} (a : A) : exact (fun s => Ok (a, s)).
Proof. intros s b r E. injection E as <- <-. exists []. auto. Qed.
Lemma exact_u8 : exact get_u8.
Proof. intros s a r E. destruct s as [|b s]; [discriminate|]. injection E as <- <-. exists [b]. auto. Qed.
Lemma exact_u32 : exact get_u32.
Proof. intros s a r E. destruct s as [|b1 [|b2 [|b3 [|b4 s]]]]; try discriminate. injection E as <- <-. exists [b1; b2; b3; b4]. auto. Qed.
Lemma exact_bytes n : exact (get_bytes n).
Proof.
  intros s a r E. unfold get_bytes in *. destruct (Z.leb_spec n (Z.of_nat (length s))); [|discriminate]. injection E as <- <-. exists (firstn (Z.to_nat n) s).
  rewrite firstn_skipn. split; [reflexivity|]. assert (L : length (firstn (Z.to_nat n) s) = Z.to_nat n) by (apply firstn_length_le; lia).
  assert (K : n <=? Z.of_nat (length (firstn (Z.to_nat n) s)) = true) by (apply Z.leb_le; rewrite L; lia). rewrite K. rewrite firstn_firstn, Nat.min_id. rewrite <- L at 2. rewrite skipn_all. reflexivity.
Qed.
Lemma exact_str n : exact (get_str_field n).
Proof. unfold get_str_field. apply exact_bind; [apply steady_bytes|apply exact_bytes|]. intros a. apply exact_ret. Qed.
Lemma exact_s32 : exact get_s32.
Proof. unfold get_s32. apply exact_bind; [apply steady_u32|apply exact_u32|]. intros a. apply exact_ret. Qed.
Lemma exact_pwg : exact decode_pwg_hdr.
Proof.
  unfold decode_pwg_hdr. repeat (apply exact_bind; [first [apply steady_u32|apply steady_s32|apply steady_bytes|apply steady_str]|first [apply exact_u32|apply exact_s32|apply exact_bytes|apply exact_str]|intros ?]). apply exact_ret.
Qed.
Lemma exact_urf : exact decode_urf_hdr.
Proof. unfold decode_urf_hdr. repeat (apply exact_bind; [first [apply steady_u8|apply steady_u32|apply steady_bytes]|first [apply exact_u8|apply exact_u32|apply exact_bytes]|intros ?]). apply exact_ret. Qed.
Lemma exact_line bw c urf : forall f file line l r, decode_line f file line bw c urf = Ok (l, r) ->
  exists p, file = p ++ r /\ forall g, (length p < g)%nat -> decode_line g p line bw c urf = Ok (l, []).
Proof.
  induction f as [|f IH]; intros file line l r E; [discriminate|]. cbn [decode_line] in E. destruct (Z.of_nat (length line) =? bw) eqn:W.
  { injection E as <- <-. exists []. split; [reflexivity|]. intros [|g] L; [cbn in L; lia|]. cbn [decode_line]. rewrite W. reflexivity. }
  bind_inv E as y E1 E2. destruct y as [count f1]. destruct file as [|b file]; [discriminate|]. injection E1 as <- <-. destruct (urf && _) eqn:U.
  - bind_inv E2 as w E3 E4. destruct (IH _ _ _ _ E4) as (p & -> & P). exists (b :: p). split; [reflexivity|]. intros [|g] L; [cbn in L; lia|]. cbn [decode_line get_u8 bind].
    rewrite W, U, E3. cbn [bind]. apply P. cbn in L. lia.
  - destruct (Zb b <? 128) eqn:B; bind_inv E2 as y E3 E4; destruct y as [t f2]; destruct (exact_bytes _ _ _ _ E3) as (q & -> & Q); destruct (IH _ _ _ _ E4) as (p & -> & P);
      exists (b :: q ++ p); (split; [cbn [app]; rewrite <- app_assoc; reflexivity|]); intros [|g] L; try (cbn in L; lia); cbn [decode_line get_u8 bind];
      rewrite W, U, B, (steady_bytes _ _ _ _ Q); cbn [bind app]; apply P; cbn in L; rewrite app_length in L; lia.
Qed.
Lemma exact_lines bw c urf : forall f file h l r, decode_lines f file bw h c urf = Ok (l, r) ->
  exists p, file = p ++ r /\ forall g, (length p < g)%nat -> decode_lines g p bw h c urf = Ok (l, []).
Proof.
  induction f as [|f IH]; intros file h l r E; [discriminate|]. cbn [decode_lines] in E. destruct (h =? 0) eqn:H.
  { injection E as <- <-. exists []. split; [reflexivity|]. intros [|g] L; [cbn in L; lia|]. cbn [decode_lines]. rewrite H. reflexivity. }
  bind_inv E as y E1 E2. destruct y as [rep f1]. destruct file as [|b file]; [discriminate|]. injection E1 as <- <-. bind_inv E2 as y E3 E4. destruct y as [line f2].
  destruct (exact_line _ _ _ _ _ _ _ _ E3) as (q & -> & Q). bind_inv E4 as y E5 E6. destruct y as [rest f3]. destruct (IH _ _ _ _ E5) as (p & -> & P). injection E6 as <- <-.
  exists (b :: q ++ p). split; [cbn [app]; rewrite <- app_assoc; reflexivity|]. intros [|g] L; [cbn in L; lia|]. cbn [decode_lines get_u8 bind]. rewrite H.
  rewrite (steady_line _ _ _ _ _ _ _ _ (Q (S (length q)) (le_n _)) p (S (length (q ++ p)))) by (rewrite app_length; lia). cbn [bind app].
  rewrite P by (cbn in L; rewrite app_length in L; lia). reflexivity.
Qed.
Lemma exact_bmp bw h c urf : exact (fun file => raster_to_bmp file bw h c urf).
Proof. intros s a r E. unfold raster_to_bmp in *. destruct (exact_lines _ _ _ _ _ _ _ _ E) as (p & H & P). exists p. split; [exact H|]. apply P. lia. Qed.

(** ** A page takes at least one byte *)
Definition shrinks {A} (k : nat) (f : list byte -> outcome (A * list byte)) : Prop := forall s a r, f s = Ok (a, r) -> (k + length r <= length s)%nat.
Lemma shrinks_bind {A B} i j (f : list byte -> outcome (A * list byte)) (g : A -> list byte -> outcome (B * list byte)) :
  shrinks i f -> (forall a, shrinks j (g a)) -> shrinks (i + j) (fun s => let! (a, r) := f s in g a r).
Proof. intros F G s b r E. bind_inv E as y E1 E2. destruct y as [a r1]. pose proof (F _ _ _ E1). pose proof (G a _ _ _ E2). lia. Qed.
Lemma shrinks_ret {A} (a : A) : shrinks 0 (fun s => Ok (a, s)).
Proof. intros s b r E. injection E as <- <-. lia. Qed.
Lemma shrinks_u8 : shrinks 1 get_u8.
Proof. intros s a r E. destruct s as [|b s]; [discriminate|]. injection E as <- <-. cbn. lia. Qed.
Lemma shrinks_u32 : shrinks 1 get_u32.
Proof. intros s a r E. destruct s as [|b1 [|b2 [|b3 [|b4 s]]]]; try discriminate. injection E as <- <-. cbn. lia. Qed.
Lemma shrinks_bytes n : shrinks 0 (get_bytes n).
Proof. intros s a r E. unfold get_bytes in *. destruct (n <=? _); [|discriminate]. injection E as <- <-. rewrite skipn_length. lia. Qed.
Lemma shrinks_str n : shrinks 0 (get_str_field n).
Proof. unfold get_str_field. apply (shrinks_bind 0 0); [apply shrinks_bytes|]. intros a. apply shrinks_ret. Qed.
Lemma shrinks_s32 : shrinks 1 get_s32.
Proof. unfold get_s32. apply (shrinks_bind 1 0); [apply shrinks_u32|]. intros a. apply shrinks_ret. Qed.
Lemma pwg_shorter s h r : decode_pwg_hdr s = Ok (h, r) -> (length r < length s)%nat.
Proof.
  intros E. enough (K : exists k, shrinks (S k) decode_pwg_hdr) by (destruct K as [k K]; pose proof (K _ _ _ E); lia).
  assert (X : exists k, shrinks k decode_pwg_hdr /\ (0 < k)%nat); [|destruct X as ([|k] & X & ?); [lia|exists k; exact X]].
  eexists. split.
  - unfold decode_pwg_hdr. repeat (eapply shrinks_bind; [first [apply shrinks_u32|apply shrinks_s32|apply shrinks_bytes|apply shrinks_str]|intros ?]). apply shrinks_ret.
  - cbn. lia.
Qed.
Lemma urf_shorter s h r : decode_urf_hdr s = Ok (h, r) -> (length r < length s)%nat.
Proof.
  intros E. assert (X : exists k, shrinks k decode_urf_hdr /\ (0 < k)%nat); [|destruct X as (k & X & ?); pose proof (X _ _ _ E); lia].
  eexists. split.
  - unfold decode_urf_hdr. repeat (eapply shrinks_bind; [first [apply shrinks_u8|apply shrinks_u32|apply shrinks_bytes]|intros ?]). apply shrinks_ret.
  - cbn. lia.
Qed.
Lemma line_shorter bw c urf : forall f file line l r, decode_line f file line bw c urf = Ok (l, r) -> (length r <= length file)%nat.
Proof.
  induction f as [|f IH]; intros file line l r E; [discriminate|]. cbn [decode_line] in E. destruct (_ =? bw); [injection E as <- <-; lia|].
  bind_inv E as y E1 E2. destruct y as [count f1]. pose proof (shrinks_u8 _ _ _ E1). destruct (urf && _).
  - bind_inv E2 as w E3 E4. pose proof (IH _ _ _ _ E4). lia.
  - destruct (count <? 128); bind_inv E2 as y E3 E4; destruct y as [t f2]; pose proof (shrinks_bytes _ _ _ _ E3); pose proof (IH _ _ _ _ E4); lia.
Qed.
Lemma lines_shorter bw c urf : forall f file h l r, decode_lines f file bw h c urf = Ok (l, r) -> (length r <= length file)%nat.
Proof.
  induction f as [|f IH]; intros file h l r E; [discriminate|]. cbn [decode_lines] in E. destruct (h =? 0); [injection E as <- <-; lia|].
  bind_inv E as y E1 E2. destruct y as [rep f1]. pose proof (shrinks_u8 _ _ _ E1). bind_inv E2 as y E3 E4. destruct y as [line f2]. pose proof (line_shorter _ _ _ _ _ _ _ _ E3).
  bind_inv E4 as y E5 E6. destruct y as [rest f3]. pose proof (IH _ _ _ _ E5). injection E6 as <- <-. lia.
Qed.
Lemma bmp_shorter file bw h c urf l r : raster_to_bmp file bw h c urf = Ok (l, r) -> (length r <= length file)%nat.
Proof. apply lines_shorter. Qed.

(** ** The trace of pages that are whole *)
Definition after {A} (s : string) (fs : list (string * list byte)) (t : trace A) : trace A := mkTrace (s ++ tr_err t) (fs ++ tr_files t) (tr_end t).
Lemma page_line_said n : page_line n = said_line ("Page " ++ dec_string n).
Proof. unfold page_line, said_line. rewrite !sapp_assoc. reflexivity. Qed.
Lemma pwg_traced dp prefix x n file hs fs : pwg_pages_read prefix n file hs fs -> exists s, page_lines n (map dp hs) s
  /\ forall fuel, (length (file ++ x) < fuel)%nat -> exists fuel', (length x < fuel')%nat /\ pwg_trace dp fuel (file ++ x) n prefix = after s fs (pwg_trace dp fuel' x (n + Z.of_nat (length hs)) prefix).
Proof.
  induction 1 as [n|n file h body bmp rest hs fs E1 E2 _ (s & S & IH)].
  - exists ""%string. split; [constructor|]. intros fuel L. exists fuel. split; [exact L|]. cbn [app length]. rewrite Z.add_0_r. destruct (pwg_trace dp fuel x n prefix). reflexivity.
  - eexists. split; [constructor; exact S|]. intros fuel L. pose proof (pwg_shorter _ _ _ E1). pose proof (bmp_shorter _ _ _ _ _ _ _ E2). destruct fuel as [|fuel]; [lia|]. rewrite app_length in L.
    destruct (IH fuel) as (fuel' & L' & IH'); [rewrite app_length; lia|]. exists fuel'. split; [exact L'|]. cbn [pwg_trace]. destruct file as [|b file]; [cbn in *; lia|]. cbn [app]. cbv zeta.
    change (b :: file ++ x) with ((b :: file) ++ x). rewrite (steady_pwg _ _ _ E1). cbn [tries]. rewrite (steady_bmp _ _ _ _ _ _ _ E2). cbn [tries]. cbv zeta. cbn [tries]. rewrite IH'.
    replace (n + 1 + Z.of_nat (length hs)) with (n + Z.of_nat (length (h :: hs))) by (cbn [length]; lia).
    unfold says, writes, after. cbn [tr_err tr_files tr_end map app]. rewrite page_line_said. f_equal. unfold said_line. rewrite !sapp_assoc. reflexivity.
Qed.
Lemma urf_traced du prefix x n file hs fs : urf_pages_read prefix n file hs fs -> exists s, page_lines n (map du hs) s
  /\ forall fuel, (length (file ++ x) < fuel)%nat -> exists fuel', (length x < fuel')%nat /\ urf_trace du fuel (file ++ x) n prefix = after s fs (urf_trace du fuel' x (n + Z.of_nat (length hs)) prefix).
Proof.
  induction 1 as [n|n file h body bmp rest hs fs E1 E2 _ (s & S & IH)].
  - exists ""%string. split; [constructor|]. intros fuel L. exists fuel. split; [exact L|]. cbn [app length]. rewrite Z.add_0_r. destruct (urf_trace du fuel x n prefix). reflexivity.
  - eexists. split; [constructor; exact S|]. intros fuel L. pose proof (urf_shorter _ _ _ E1). pose proof (bmp_shorter _ _ _ _ _ _ _ E2). destruct fuel as [|fuel]; [lia|]. rewrite app_length in L.
    destruct (IH fuel) as (fuel' & L' & IH'); [rewrite app_length; lia|]. exists fuel'. split; [exact L'|]. cbn [urf_trace]. destruct file as [|b file]; [cbn in *; lia|]. cbn [app]. cbv zeta.
    change (b :: file ++ x) with ((b :: file) ++ x). rewrite (steady_urf _ _ _ E1). cbn [tries]. rewrite (steady_bmp _ _ _ _ _ _ _ E2). cbn [tries]. cbv zeta. cbn [tries]. rewrite IH'.
    replace (n + 1 + Z.of_nat (length hs)) with (n + Z.of_nat (length (h :: hs))) by (cbn [length]; lia).
    unfold says, writes, after. cbn [tr_err tr_files tr_end map app]. rewrite page_line_said. f_equal. unfold said_line. rewrite !sapp_assoc. reflexivity.
Qed.

(** ** Theorems *)
(** how a run ends: all pages whole, or the first bad one with what reading it came to *)
Definition ends_as {A} (x : outcome A) (e : outcome Z) : Prop := match x, e with Throw a, Throw b => a = b | UB, UB | Hang, Hang | NoFuel, NoFuel => True | _, _ => False end.
Inductive pwg_rest (dp : pwg_hdr -> string) (n : Z) : list byte -> string -> outcome Z -> Prop :=
| pwg_all : pwg_rest dp n [] (said_line ("Total pages: " ++ dec_string n)) (Ok 0)
| pwg_bad_header x e : x <> [] -> ends_as (decode_pwg_hdr x) e -> pwg_rest dp n x (said_line ("Page " ++ dec_string (n + 1))) e
| pwg_bad_body x h body e : decode_pwg_hdr x = Ok (h, body) -> ends_as (raster_to_bmp body (h_BytesPerLine h) (h_Height h) (h_NumColors h) false) e ->
    pwg_rest dp n x (said_line ("Page " ++ dec_string (n + 1)) ++ said_line (dp h)) e.
Inductive urf_rest (du : urf_hdr -> string) (n : Z) : list byte -> string -> outcome Z -> Prop :=
| urf_all : urf_rest du n [] (said_line ("Total pages: " ++ dec_string n)) (Ok 0)
| urf_bad_header x e : x <> [] -> ends_as (decode_urf_hdr x) e -> urf_rest du n x (said_line ("Page " ++ dec_string (n + 1))) e
| urf_bad_body x h body e : decode_urf_hdr x = Ok (h, body) -> ends_as (raster_to_bmp body ((u_Width h * (u_BitsPerPixel h / 8)) mod two32) (u_Height h) (u_BitsPerPixel h / 8) true) e ->
    urf_rest du n x (said_line ("Page " ++ dec_string (n + 1)) ++ said_line (du h)) e.
Lemma total_after s fs t : total (after s fs t) = after s fs (total t).
Proof. destruct t as [u v w]. unfold total, after. cbn [tr_end tr_err tr_files]. destruct w; cbn [tr_err tr_files tr_end]; rewrite ?sapp_assoc; reflexivity. Qed.
Lemma pwg_rest_said dp n x said e fuel prefix : (length x < fuel)%nat -> pwg_rest dp n x said e -> total (pwg_trace dp fuel x n prefix) = mkTrace said [] e.
Proof.
  intros L R. destruct fuel as [|fuel]; [lia|]. cbn [pwg_trace]. destruct R as [|x e N H|x h body e H1 H2].
  - unfold total, said_line. cbn [tr_end tr_err tr_files]. rewrite !sapp_assoc. reflexivity.
  - destruct x as [|b x]; [congruence|]. rewrite page_line_said. destruct (decode_pwg_hdr (b :: x)), e; cbn in H; try contradiction; subst; unfold says, total; cbn [tries tr_err tr_files tr_end]; unfold said_line; rewrite ?app_nil_s, ?sapp_assoc; reflexivity.
  - destruct x as [|b x]; [discriminate H1|]. rewrite page_line_said, H1. cbn [tries]. destruct (raster_to_bmp _ _ _ _ _), e; cbn in H2; try contradiction; subst; unfold says, total; cbn [tries tr_err tr_files tr_end]; unfold said_line; rewrite ?app_nil_s, ?sapp_assoc; reflexivity.
Qed.
Lemma urf_rest_said du n x said e fuel prefix : (length x < fuel)%nat -> urf_rest du n x said e -> total (urf_trace du fuel x n prefix) = mkTrace said [] e.
Proof.
  intros L R. destruct fuel as [|fuel]; [lia|]. cbn [urf_trace]. destruct R as [|x e N H|x h body e H1 H2].
  - unfold total, said_line. cbn [tr_end tr_err tr_files]. rewrite !sapp_assoc. reflexivity.
  - destruct x as [|b x]; [congruence|]. rewrite page_line_said. destruct (decode_urf_hdr (b :: x)), e; cbn in H; try contradiction; subst; unfold says, total; cbn [tries tr_err tr_files tr_end]; unfold said_line; rewrite ?app_nil_s, ?sapp_assoc; reflexivity.
  - destruct x as [|b x]; [discriminate H1|]. rewrite page_line_said, H1. cbn [tries]. cbv zeta. destruct (raster_to_bmp _ _ _ _ _), e; cbn in H2; try contradiction; subst; unfold says, total; cbn [tries tr_err tr_files tr_end]; unfold said_line; rewrite ?app_nil_s, ?sapp_assoc; reflexivity.
Qed.
(** The files of the pages before the first bad one are there, whatever follows them, and the
    standard error names every page that was begun. *)
Theorem C117_pwg dp du prefix file x hs fs said e : pwg_pages_read prefix 0 file hs fs -> pwg_rest dp (Z.of_nat (length hs)) x said e ->
  exists lines, page_lines 0 (map dp hs) lines
    /\ pwg2ppm_trace dp du (bytes_of_string "RaS2" ++ file ++ x) prefix
       = mkTrace (said_line ("File is " ++ dec_string (4 + Z.of_nat (length file) + Z.of_nat (length x)) ++ " long") ++ said_line "Smells like PWG Raster" ++ lines ++ said) fs e.
Proof.
  intros P R. destruct (pwg_traced dp prefix x 0 file hs fs P) as (s & S & T). exists s. split; [exact S|]. unfold pwg2ppm_trace.
  change (eat (bytes_of_string "RaS2") (bytes_of_string "RaS2" ++ file ++ x)) with (Some (file ++ x)). cbv iota.
  destruct (T (Datatypes.S (length (file ++ x))) (le_n _)) as (fuel' & L & ->). rewrite total_after, Z.add_0_l, (pwg_rest_said _ _ _ _ _ _ _ L R). unfold says, after, said_line. cbn [tr_err tr_files tr_end]. rewrite app_nil_r, !sapp_assoc.
  replace (Z.of_nat (length (bytes_of_string "RaS2" ++ file ++ x))) with (4 + Z.of_nat (length file) + Z.of_nat (length x)) by (rewrite !app_length; change (length (bytes_of_string "RaS2")) with 4%nat; lia). reflexivity.
Qed.
Print Assumptions C117_pwg.
(** the number of pages announced by the header is repeated, not checked *)
Theorem C117_urf dp du prefix b1 b2 b3 b4 file x hs fs said e : urf_pages_read prefix 0 file hs fs -> urf_rest du (Z.of_nat (length hs)) x said e ->
  exists lines, page_lines 0 (map du hs) lines
    /\ pwg2ppm_trace dp du (bytes_of_string "UNIRAST" ++ bZ 0 :: b1 :: b2 :: b3 :: b4 :: file ++ x) prefix
       = mkTrace (said_line ("File is " ++ dec_string (12 + Z.of_nat (length file) + Z.of_nat (length x)) ++ " long")
                  ++ said_line ("Smells like URF Raster, with " ++ dec_string (16777216 * Zb b1 + 65536 * Zb b2 + 256 * Zb b3 + Zb b4) ++ " pages") ++ lines ++ said) fs e.
Proof.
  intros P R. destruct (urf_traced du prefix x 0 file hs fs P) as (s & S & T). exists s. split; [exact S|]. unfold pwg2ppm_trace.
  change (eat (bytes_of_string "RaS2") (bytes_of_string "UNIRAST" ++ ?l)) with (@None (list byte)). cbv iota.
  change (eat (bytes_of_string "UNIRAST") (bytes_of_string "UNIRAST" ++ ?l)) with (Some l). cbv iota. cbn [get_u8 tries]. change (Zb (bZ 0) =? 0) with true. cbv iota. cbn [get_u32 tries].
  destruct (T (Datatypes.S (length (file ++ x))) (le_n _)) as (fuel' & L & ->). rewrite total_after, Z.add_0_l, (urf_rest_said _ _ _ _ _ _ _ L R). unfold says, after, said_line. cbn [tr_err tr_files tr_end]. rewrite app_nil_r, !sapp_assoc.
  replace (un32 b1 b2 b3 b4) with (16777216 * Zb b1 + 65536 * Zb b2 + 256 * Zb b3 + Zb b4) by (unfold un32; lia).
  match goal with |- context [dec_string (Z.of_nat (length ?l))] => replace (Z.of_nat (length l)) with (12 + Z.of_nat (length file) + Z.of_nat (length x)) end; [reflexivity|].
  rewrite app_length. cbn [length]. rewrite app_length. change (length (bytes_of_string "UNIRAST")) with 7%nat. lia.
Qed.
Print Assumptions C117_urf.
(** Every file that begins as a PWG raster is such a sequence of whole pages and such a rest. *)
Lemma bad_ends {A} (x : outcome A) : (exists a, x = Ok a) \/ exists e, ends_as x e.
Proof. destruct x as [a|e| | |]; [left; eauto|right; exists (Throw e)|right; exists UB|right; exists Hang|right; exists NoFuel]; cbn; auto. Qed.
Lemma pwg_cut dp prefix : forall k file n, (length file < k)%nat -> exists p x hs fs said e, file = p ++ x /\ pwg_pages_read prefix n p hs fs /\ pwg_rest dp (n + Z.of_nat (length hs)) x said e.
Proof.
  induction k as [|k IH]; intros file n L; [lia|]. destruct file as [|b file].
  { exists [], [], [], [], (said_line ("Total pages: " ++ dec_string n)), (Ok 0). split; [reflexivity|]. split; [constructor|]. cbn [length]. rewrite Z.add_0_r. constructor. }
  destruct (bad_ends (decode_pwg_hdr (b :: file))) as [([h body] & E1)|(e & E1)].
  2:{ exists [], (b :: file), [], [], (said_line ("Page " ++ dec_string (n + 1))), e. split; [reflexivity|]. split; [constructor|]. cbn [length]. rewrite Z.add_0_r. constructor; [discriminate|exact E1]. }
  destruct (bad_ends (raster_to_bmp body (h_BytesPerLine h) (h_Height h) (h_NumColors h) false)) as [([bmp rest] & E2)|(e & E2)].
  2:{ exists [], (b :: file), [], [], (said_line ("Page " ++ dec_string (n + 1)) ++ said_line (dp h))%string, e. split; [reflexivity|]. split; [constructor|]. cbn [length]. rewrite Z.add_0_r. eapply pwg_bad_body; eassumption. }
  pose proof (pwg_shorter _ _ _ E1). pose proof (bmp_shorter _ _ _ _ _ _ _ E2). destruct (IH rest (n + 1)) as (p & x & hs & fs & said & e & -> & P & R); [lia|].
  destruct (exact_pwg _ _ _ E1) as (p1 & -> & Q1). destruct (exact_bmp _ _ _ _ _ _ _ E2) as (p2 & -> & Q2). exists (p1 ++ p2 ++ p), x, (h :: hs).
  eexists. exists said, e. split; [rewrite <- !app_assoc; reflexivity|]. split.
  - eapply pwg_read_page; [rewrite (steady_pwg _ _ _ Q1); reflexivity| |exact P]. cbn [app]. exact (steady_bmp _ _ _ _ _ _ _ Q2 p).
  - replace (n + Z.of_nat (length (h :: hs))) with (n + 1 + Z.of_nat (length hs)) by (cbn [length]; lia). exact R.
Qed.
Lemma urf_cut du prefix : forall k file n, (length file < k)%nat -> exists p x hs fs said e, file = p ++ x /\ urf_pages_read prefix n p hs fs /\ urf_rest du (n + Z.of_nat (length hs)) x said e.
Proof.
  induction k as [|k IH]; intros file n L; [lia|]. destruct file as [|b file].
  { exists [], [], [], [], (said_line ("Total pages: " ++ dec_string n)), (Ok 0). split; [reflexivity|]. split; [constructor|]. cbn [length]. rewrite Z.add_0_r. constructor. }
  destruct (bad_ends (decode_urf_hdr (b :: file))) as [([h body] & E1)|(e & E1)].
  2:{ exists [], (b :: file), [], [], (said_line ("Page " ++ dec_string (n + 1))), e. split; [reflexivity|]. split; [constructor|]. cbn [length]. rewrite Z.add_0_r. constructor; [discriminate|exact E1]. }
  destruct (bad_ends (raster_to_bmp body ((u_Width h * (u_BitsPerPixel h / 8)) mod two32) (u_Height h) (u_BitsPerPixel h / 8) true)) as [([bmp rest] & E2)|(e & E2)].
  2:{ exists [], (b :: file), [], [], (said_line ("Page " ++ dec_string (n + 1)) ++ said_line (du h))%string, e. split; [reflexivity|]. split; [constructor|]. cbn [length]. rewrite Z.add_0_r. eapply urf_bad_body; eassumption. }
  pose proof (urf_shorter _ _ _ E1). pose proof (bmp_shorter _ _ _ _ _ _ _ E2). destruct (IH rest (n + 1)) as (p & x & hs & fs & said & e & -> & P & R); [lia|].
  destruct (exact_urf _ _ _ E1) as (p1 & -> & Q1). destruct (exact_bmp _ _ _ _ _ _ _ E2) as (p2 & -> & Q2). exists (p1 ++ p2 ++ p), x, (h :: hs).
  eexists. exists said, e. split; [rewrite <- !app_assoc; reflexivity|]. split.
  - eapply urf_read_page; [rewrite (steady_urf _ _ _ Q1); reflexivity| |exact P]. cbn [app]. exact (steady_bmp _ _ _ _ _ _ _ Q2 p).
  - replace (n + Z.of_nat (length (h :: hs))) with (n + 1 + Z.of_nat (length hs)) by (cbn [length]; lia). exact R.
Qed.
Theorem C117_pwg_every dp prefix file : exists p x hs fs said e, file = p ++ x /\ pwg_pages_read prefix 0 p hs fs /\ pwg_rest dp (Z.of_nat (length hs)) x said e.
Proof. exact (pwg_cut dp prefix (S (length file)) file 0 (le_n _)). Qed.
Print Assumptions C117_pwg_every.
Theorem C117_urf_every du prefix file : exists p x hs fs said e, file = p ++ x /\ urf_pages_read prefix 0 p hs fs /\ urf_rest du (Z.of_nat (length hs)) x said e.
Proof. exact (urf_cut du prefix (S (length file)) file 0 (le_n _)). Qed.
Print Assumptions C117_urf_every.
Lemma eat_is lit : forall s r, eat lit s = Some r -> s = lit ++ r.
Proof. induction lit as [|a lit IH]; intros [|b s] r E; cbn in E; try discriminate; try (injection E as <-; reflexivity). destruct (Ascii.eqb_spec a b) as [->|]; [|discriminate]. cbn. rewrite (IH _ _ E). reflexivity. Qed.
(** A file that begins in neither way is refused: one line for its length, one for the refusal,
    and nothing is written. *)
Theorem C117_unknown dp du prefix file : (forall x, file <> bytes_of_string "RaS2" ++ x) -> (forall x, file <> bytes_of_string "UNIRAST" ++ x) ->
  pwg2ppm_trace dp du file prefix = mkTrace (said_line ("File is " ++ dec_string (Z.of_nat (length file)) ++ " long") ++ said_line "Unknown file format") [] (Ok 1).
Proof.
  intros N1 N2. unfold pwg2ppm_trace. destruct (eat (bytes_of_string "RaS2") file) as [r|] eqn:E1; [exfalso; exact (N1 r (eat_is _ _ _ E1))|].
  destruct (eat (bytes_of_string "UNIRAST") file) as [r|] eqn:E2; [exfalso; exact (N2 r (eat_is _ _ _ E2))|]. unfold says, said_line. cbn [tr_err tr_files tr_end]. rewrite !sapp_assoc. reflexivity.
Qed.
Print Assumptions C117_unknown.
(** Only two arguments are accepted; an input that cannot be opened is told like an empty one *)
Theorem C117_command dp du files args :
  (length args <> 2%nat -> pwg2ppm_tells dp du files args = mkTrace (said_line "Usage: pwg2ppm <infile> <outfile prefix>") [] (Ok 1))
  /\ forall i prefix, args = [i; prefix] -> files i = None ->
     pwg2ppm_tells dp du files args = mkTrace (said_line "File is 0 long" ++ said_line "Unknown file format") [] (Ok 1).
Proof.
  split.
  - intros N. destruct args as [|a [|b [|c l]]]; cbn in N; try congruence; reflexivity.
  - intros i prefix -> F. cbn [pwg2ppm_tells]. rewrite F. rewrite C117_unknown by (intros x H; discriminate H). reflexivity.
Qed.
Print Assumptions C117_command.
(** The trace is of the program of C12: the same ending, and when it ends the same files. *)
Definition agrees {A B} (x : outcome A) (t : trace B) (same : A -> B -> list (string * list byte) -> Prop) : Prop :=
  match x, tr_end t with
  | Ok a, Ok b => same a b (tr_files t)
  | Throw e, Throw e' => e = e'
  | UB, UB | Hang, Hang | NoFuel, NoFuel => True
  | _, _ => False
  end.
Lemma agrees_tries {A B C} (x : outcome A) (k : A -> outcome B) (t : A -> trace C) same : (forall a, x = Ok a -> agrees (k a) (t a) same) -> agrees (bind x k) (tries x t) same.
Proof. intros H. destruct x; cbn [bind tries]; try exact I; [apply H; reflexivity|reflexivity]. Qed.
Lemma agrees_says {A B} (x : outcome A) s (t : trace B) same : agrees x t same -> agrees x (says s t) same.
Proof. intros H. exact H. Qed.
Lemma agrees_writes {B} f (x : outcome (list (string * list byte))) (t : trace B) : agrees x t (fun a _ fs => a = fs) -> agrees (let! rest := x in Ok (f :: rest)) (writes f t) (fun a _ fs => a = fs).
Proof. intros H. unfold agrees in *. cbn [writes tr_end tr_files]. destruct x, (tr_end t); cbn [bind]; try contradiction; try assumption. subst. reflexivity. Qed.
Lemma pwg_agrees dp prefix : forall fuel file n, agrees (pwg_pages fuel file n prefix) (pwg_trace dp fuel file n prefix) (fun a _ fs => a = fs).
Proof.
  induction fuel as [|fuel IH]; intros file n; [exact I|]. cbn [pwg_pages pwg_trace]. destruct file as [|b file]; [reflexivity|]. cbv zeta.
  apply agrees_says, agrees_tries. intros [h body] _. apply agrees_says, agrees_tries. intros [bmp rest] _. apply agrees_writes, IH.
Qed.
Lemma urf_agrees du prefix : forall fuel file n, agrees (urf_pages fuel file n prefix) (urf_trace du fuel file n prefix) (fun a _ fs => a = fs).
Proof.
  induction fuel as [|fuel IH]; intros file n; [exact I|]. cbn [urf_pages urf_trace]. destruct file as [|b file]; [reflexivity|]. cbv zeta.
  apply agrees_says, agrees_tries. intros [h body] _. apply agrees_says, agrees_tries. intros [bmp rest] _. apply agrees_writes, IH.
Qed.
Lemma agrees_total x t : agrees x t (fun a _ fs => a = fs) -> agrees (let! outs := x in Ok (0, outs)) (total t) (fun a b fs => fst a = b /\ snd a = fs).
Proof. intros H. unfold agrees, total in *. destruct t as [u v w]. cbn [tr_end tr_files] in *. destruct x, w; cbn [bind tr_end tr_files fst snd]; try contradiction; auto. Qed.
Theorem C117_same_program dp du prefix file : agrees (pwg2ppm file prefix) (pwg2ppm_trace dp du file prefix) (fun a b fs => fst a = b /\ snd a = fs).
Proof.
  unfold pwg2ppm, pwg2ppm_trace. apply agrees_says. destruct (eat (bytes_of_string "RaS2") file) as [r|].
  - apply agrees_says, agrees_total, pwg_agrees.
  - destruct (eat (bytes_of_string "UNIRAST") file) as [r|]; [|cbn; auto].
    apply agrees_tries. intros [z s] _. destruct (z =? 0); [|reflexivity]. apply agrees_tries. intros [k s'] _. apply agrees_says, agrees_total, urf_agrees.
Qed.
Print Assumptions C117_same_program.
(** A URF file header that is cut off or lacks its zero byte raises before anything but the length is said. *)
Theorem C117_urf_header dp du prefix rest : (length rest < 5)%nat \/ (exists b l, rest = b :: l /\ b <> bZ 0) ->
  exists e, pwg2ppm_trace dp du (bytes_of_string "UNIRAST" ++ rest) prefix = mkTrace (said_line ("File is " ++ dec_string (7 + Z.of_nat (length rest)) ++ " long")) [] (Throw e)
    /\ (e = BadMatch <-> exists b l, rest = b :: l /\ b <> bZ 0).
Proof.
  assert (Z0 : forall b, Zb b =? 0 = true -> b = bZ 0) by (intros b H; rewrite <- (bZ_Zb b); f_equal; apply Z.eqb_eq; exact H).
  intros H. unfold pwg2ppm_trace.
  change (eat (bytes_of_string "RaS2") (bytes_of_string "UNIRAST" ++ rest)) with (@None (list byte)). cbv iota.
  change (eat (bytes_of_string "UNIRAST") (bytes_of_string "UNIRAST" ++ rest)) with (Some rest). cbv iota.
  replace (Z.of_nat (length (bytes_of_string "UNIRAST" ++ rest))) with (7 + Z.of_nat (length rest)) by (rewrite app_length; change (length (bytes_of_string "UNIRAST")) with 7%nat; lia).
  destruct rest as [|b l].
  { exists OutOfRange. split; [unfold says, said_line; cbn [get_u8 tries tr_err tr_files tr_end]; rewrite app_nil_s, !sapp_assoc; reflexivity|]. split; [discriminate|]. intros (b & l & E & _). discriminate E. }
  cbn [get_u8 tries]. destruct (Zb b =? 0) eqn:B.
  - exists OutOfRange. apply Z0 in B. subst b. assert (S : (length l < 4)%nat) by (destruct H as [H|(c & k & E & N)]; [cbn in H; lia|injection E as <- <-; congruence]).
    split; [|split; [discriminate|intros (c & k & E & N); injection E as <- <-; congruence]].
    replace (get_u32 l) with (@Throw (Z * list byte) OutOfRange) by (destruct l as [|? [|? [|? [|? l]]]]; cbn in S; try reflexivity; lia).
    unfold says, said_line. cbn [tries tr_err tr_files tr_end]. rewrite app_nil_s, !sapp_assoc. reflexivity.
  - exists BadMatch. split; [unfold says, said_line; cbn [tr_err tr_files tr_end]; rewrite app_nil_s, !sapp_assoc; reflexivity|]. split; [|reflexivity]. intros _. exists b, l. split; [reflexivity|]. intros ->. discriminate B.
Qed.
Print Assumptions C117_urf_header.
(** The number of pages that a URF file announces is not compared with the number of its pages. *)
Theorem C117_count_refuted : ~ forall dp du prefix b1 b2 b3 b4 file,
  tr_end (pwg2ppm_trace dp du (bytes_of_string "UNIRAST" ++ bZ 0 :: b1 :: b2 :: b3 :: b4 :: file) prefix) = Ok 0 ->
  Z.of_nat (length (tr_files (pwg2ppm_trace dp du (bytes_of_string "UNIRAST" ++ bZ 0 :: b1 :: b2 :: b3 :: b4 :: file) prefix))) = 16777216 * Zb b1 + 65536 * Zb b2 + 256 * Zb b3 + Zb b4.
Proof. intros H. specialize (H (fun _ => ""%string) (fun _ => ""%string) "o"%string (bZ 0) (bZ 0) (bZ 0) (bZ 5) [] eq_refl). vm_compute in H. discriminate H. Qed.
Print Assumptions C117_count_refuted.

(** ** Example: a grey page of one pixel, then half a header *)
Definition grey_page (v : Z) : list byte := map bZ [8; 0; 1; 4; 0; 0; 0; 0; 0; 0; 0; 0; 0; 0; 0; 1; 0; 0; 0; 1; 0; 0; 1; 44; 0; 0; 0; 0; 0; 0; 0; 0; 0; 0; v].
Definition half_header : list byte := firstn 16 (grey_page 9).
Definition grey_hdr : urf_hdr := mk_urf_hdr 8 0 1 4 0 0 1 1 300.
Definition grey_file (v : Z) : list byte := bytes_of_string "P5" ++ bZ 10 :: bytes_of_string "1 1" ++ bZ 10 :: bytes_of_string "255" ++ [bZ 10; bZ v].
Example C117_example :
  urf_pages_read "o" 0 (grey_page 7 ++ grey_page 8) [grey_hdr; grey_hdr] [("o1.pgm"%string, grey_file 7); ("o2.pgm"%string, grey_file 8)]
  /\ urf_rest (fun _ => "A grey page"%string) 2 half_header (said_line "Page 3") (Throw OutOfRange)
  /\ pwg2ppm_trace (fun _ => ""%string) (fun _ => "A grey page"%string) (bytes_of_string "UNIRAST" ++ map bZ [0; 0; 0; 0; 9] ++ grey_page 7 ++ grey_page 8 ++ half_header) "o"
     = mkTrace (said_line "File is 98 long" ++ said_line "Smells like URF Raster, with 9 pages" ++ said_line "Page 1" ++ said_line "A grey page" ++ said_line "Page 2" ++ said_line "A grey page" ++ said_line "Page 3")%string
         [("o1.pgm"%string, grey_file 7); ("o2.pgm"%string, grey_file 8)] (Throw OutOfRange)
  /\ (exists p x hs fs said e, half_header = p ++ x /\ pwg_pages_read "o" 0 p hs fs /\ pwg_rest (fun _ => ""%string) (Z.of_nat (length hs)) x said e).
Proof.
  split; [|split; [|split]].
  - refine (urf_read_page "o" 0 _ grey_hdr (map bZ [0; 0; 7] ++ grey_page 8) [bZ 7] (grey_page 8) _ _ _ _ _); [reflexivity|vm_compute; reflexivity|].
    refine (urf_read_page "o" 1 _ grey_hdr (map bZ [0; 0; 8]) [bZ 8] [] _ _ _ _ _); [reflexivity|vm_compute; reflexivity|]. constructor.
  - apply urf_bad_header; [discriminate|]. vm_compute. reflexivity.
  - vm_compute. reflexivity.
  - exists [], half_header, [], [], (said_line "Page 1"), (Throw OutOfRange). split; [reflexivity|]. split; [constructor|]. apply pwg_bad_header; [discriminate|]. vm_compute. reflexivity.
Qed.
