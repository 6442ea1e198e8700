(** C106: what poppler and cairo ask of their callers, as a machine that has an answer only to
    calls that are allowed (the reference manuals of poppler-glib and cairo: poppler_document_get_page,
    cairo_surface_destroy, cairo_surface_finish, cairo_pdf_surface_create_for_stream). *)
From Verif Require Import Base CallsModel.
Local Open Scope Z_scope.

(** The document: its number of pages if it can be opened, and the pages it has.  A file can
    say that it has more pages than it has. *)
Record document := mkDoc { d_count : option Z; d_has : Z -> bool }.

Record surface := mkSurface { s_vector : bool; s_finished : bool; s_held : bool (* by the program *) }.
Record state := mkState {
  loaded : bool; stream : bool; doc : bool; err : bool; pages : list Z;
  surf : option surface; contexts : list Z; options : bool }.
Definition start (madness : bool) : state := mkState (negb madness) false false false [] None [] false.
(** all is given back *)
Definition released (madness : bool) (s : state) : Prop := s = start madness.

Definition guard (b : bool) (s : state) : option state := if b then Some s else None.
Definition has_context (n : Z) (s : state) : bool := existsb (Z.eqb n) (contexts s).
Definition without (n : Z) (l : list Z) : list Z := filter (fun m => negb (n =? m)) l.

(** A surface that is not finished takes calls.  One for a stream can write in any of them, so
    that the stream must be there. *)
Definition usable (s : state) : bool :=
  match surf s with Some f => negb (s_finished f) && (negb (s_vector f) || stream s) | None => false end.
(** A surface is destroyed with the last reference to it (every context has one), and is
    finished by that if it is not yet: the rest of the document is written. *)
Definition collect (s : state) : option state :=
  match surf s with
  | Some f =>
      if s_held f || negb (Nat.eqb (length (contexts s)) 0) then Some s
      else if s_finished f || negb (s_vector f) || stream s
      then Some (mkState (loaded s) (stream s) (doc s) (err s) (pages s) None [] (options s)) else None
  | None => Some s
  end.

Definition step (d : document) (c : call) (s : state) : option state :=
  match c with
  | Load => guard (negb (loaded s)) (mkState true (stream s) (doc s) (err s) (pages s) (surf s) (contexts s) (options s))
  | BeginStream => guard (negb (stream s)) (mkState (loaded s) true (doc s) (err s) (pages s) (surf s) (contexts s) (options s))
  | EndStream => guard (stream s) (mkState (loaded s) false (doc s) (err s) (pages s) (surf s) (contexts s) (options s))
  | _ =>
    if negb (loaded s) then None else
    match c with
    | Unload => Some (mkState false (stream s) (doc s) (err s) (pages s) (surf s) (contexts s) (options s))
    | OpenDocument =>
        guard (negb (doc s) && negb (err s))
          (mkState true (stream s) (match d_count d with Some _ => true | None => false end) (match d_count d with Some _ => false | None => true end)
             (pages s) (surf s) (contexts s) (options s))
    | CountPages => guard (doc s) s
    | UnrefDocument => guard (doc s) (mkState true (stream s) false (err s) (pages s) (surf s) (contexts s) (options s))
    | ReadError => guard (err s) s
    | FreeError => guard (err s) (mkState true (stream s) (doc s) false (pages s) (surf s) (contexts s) (options s))
    | GetPage i =>
        match d_count d with
        | Some n => guard (doc s && (1 <=? i) && (i <=? n) && negb (existsb (Z.eqb i) (pages s)))
                      (mkState true (stream s) (doc s) (err s) (if d_has d i then i :: pages s else pages s) (surf s) (contexts s) (options s))
        | None => None
        end
    | PageSize i => guard (existsb (Z.eqb i) (pages s)) s
    | UnrefPage i =>
        guard (existsb (Z.eqb i) (pages s)) (mkState true (stream s) (doc s) (err s) (without i (pages s)) (surf s) (contexts s) (options s))
    | CreateSurface v =>
        match surf s with
        | None => guard (negb v || stream s) (mkState true (stream s) (doc s) (err s) (pages s) (Some (mkSurface v false true)) (contexts s) (options s))
        | Some _ => None
        end
    | OnSurface _ => guard (usable s && match surf s with Some f => s_held f | None => false end) s
    | GetData => match surf s with Some f => guard (s_held f && negb (s_vector f) && negb (s_finished f)) s | None => None end
    | Finish =>
        match surf s with
        | Some f => guard (s_held f && (negb (s_vector f) || stream s))
                      (mkState true (stream s) (doc s) (err s) (pages s) (Some (mkSurface (s_vector f) true (s_held f))) (contexts s) (options s))
        | None => None
        end
    | DestroySurface =>
        match surf s with
        | Some f => if s_held f
                    then collect (mkState true (stream s) (doc s) (err s) (pages s) (Some (mkSurface (s_vector f) (s_finished f) false)) (contexts s) (options s))
                    else None
        | None => None
        end
    | CreateContext n =>
        guard (usable s && negb (has_context n s)) (mkState true (stream s) (doc s) (err s) (pages s) (surf s) (n :: contexts s) (options s))
    | OnContext _ n | GetFontOptions n | SetFontOptions n =>
        guard (has_context n s && usable s && match c with OnContext _ _ => true | _ => options s end) s
    | DestroyContext n =>
        if has_context n s then collect (mkState true (stream s) (doc s) (err s) (pages s) (surf s) (without n (contexts s)) (options s)) else None
    | CreateFontOptions => guard (negb (options s)) (mkState true (stream s) (doc s) (err s) (pages s) (surf s) (contexts s) true)
    | OnFontOptions => guard (options s) s
    | DestroyFontOptions => guard (options s) (mkState true (stream s) (doc s) (err s) (pages s) (surf s) (contexts s) false)
    | RenderPage i n => guard (existsb (Z.eqb i) (pages s) && has_context n s && usable s) s
    | _ => None
    end
  end.

Fixpoint run (d : document) (l : list call) (s : state) : option state :=
  match l with [] => Some s | c :: l' => match step d c s with Some s' => run d l' s' | None => None end end.

(** The calls are allowed. *)
Definition allowed (d : document) (madness : bool) (l : list call) : Prop := exists s, run d l (start madness) = Some s.
(** ... and leave nothing behind. *)
Definition allowed_and_clean (d : document) (madness : bool) (l : list call) : Prop := exists s, run d l (start madness) = Some s /\ released madness s.
