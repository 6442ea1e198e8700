(** lib/pdf2printable.cpp:55-220: the calls of poppler and cairo, and the destructors of the
    local objects.  What is written and reported is in RenderModel; what the libraries allow
    is specified in CallsSpec. *)
From Verif Require Import Base FloatModel ParamsModel RasterModel HeaderModel RenderModel.
Local Open Scope Z_scope.

(** Calls.  A context is named by the number of the page it was made for, a PopplerPage by
    the number of the page. *)
Inductive call :=
| Load | Unload                                  (* LibLoader: madness.h:9-20, with MADNESS only *)
| BeginStream | EndStream                        (* constructor and destructor of outBts *)
| OpenDocument | CountPages | UnrefDocument
| ReadError | FreeError                          (* the GError *)
| GetPage (i : Z) | PageSize (i : Z) | UnrefPage (i : Z)
| CreateSurface (vector : bool)                  (* an image surface, or one that writes to outBts *)
| OnSurface (f : string) | GetData | Finish | DestroySurface
| CreateContext (n : Z) | OnContext (f : string) (n : Z) | DestroyContext (n : Z)
| CreateFontOptions | OnFontOptions | GetFontOptions (n : Z) | SetFontOptions (n : Z) | DestroyFontOptions
| RenderPage (i n : Z).

(** pdf2printable.cpp:153-161 *)
Definition no_antialias (n : Z) : list call :=
  [OnContext "set_antialias" n; CreateFontOptions; GetFontOptions n; OnFontOptions; SetFontOptions n; DestroyFontOptions].
(** pdf2printable.cpp:162-165 *)
Definition white (n : Z) : list call := [OnContext "save" n; OnContext "set_source_rgb" n; OnContext "paint" n; OnContext "restore" n].
(** pdf2printable.cpp:149-166; the assignment to [cairo] destroys the context it had
    (pointer.h:15-19 with unique_ptr::reset) *)
Definition begin_page (p : params) (cairo : option Z) (n : Z) : list call :=
  CreateContext n :: match cairo with Some m => [DestroyContext m] | None => [] end ++
  (if is_raster p then (if p_antiAlias p then [] else no_antialias n) ++ white n else []).
(** pdf2printable.cpp:168-189; [has]: does poppler_document_get_page give a page; the
    deleter leaves null pointers alone (pointer.h:13) *)
Definition draw_page (has : Z -> bool) (n : Z) (place : option (Z * placement)) : list call :=
  match place with
  | None => []
  | Some (i, t) =>
      [GetPage i; PageSize i; OnContext "translate" n; OnContext "scale" n] ++
      (if t_rotate t then [OnContext "transform" n] else []) ++
      [RenderPage i n] ++ (if has i then [UnrefPage i] else [])
  end.

(** pdf2printable.cpp:145-210 along print_pages (RenderModel): the calls, the context that
    [cairo] is at the end, and the result of print_pages *)
Fixpoint page_calls (has : Z -> bool) (r : renderer) (wr : writer) (p : params) (total : Z) (seq : list Z) (outPageNo : Z) (cairo : option Z)
    (bmpBts outBts : list byte) (seen : list event) : list call * option Z * outcome (list event * option string * list byte) :=
  match seq with
  | [] => ([], cairo, Ok (seen, None, outBts))
  | pageNo :: rest =>
      let n := outPageNo + 1 in
      let start := begin_page p cairo n in
      match (if pageNo =? INVALID_PAGE then Ok None
             else let '(w, h) := r_size r pageNo in let! t := fixup_scale w h p in Ok (Some (pageNo, t))) with
      | Ok place =>
          let drawn := start ++ draw_page has n place ++ [OnContext "status" n] in
          match r_draw r n place with
          | None => (drawn, Some n, Ok (seen, Some "Cairo error"%string, outBts))
          | Some data =>
              let shown := drawn ++ [OnSurface "show_page"] ++ (if is_raster p then [OnSurface "flush"; GetData] else []) in
              match (if is_raster p then
                       let! bmpBts := copy_raster_buffer bmpBts data p in
                       let! page := bmp_to_pwg bmpBts n p in
                       Ok (bmpBts, outBts ++ page)
                     else Ok (bmpBts, outBts ++ r_stream r n place)) with
              | Ok (bmpBts, outBts) =>
                  if wr seen outBts then
                    let '(l, c, o) := page_calls has r wr p total rest n (Some n) bmpBts [] (seen ++ [Wrote outBts; Progress n total]) in
                    (shown ++ l, c, o)
                  else (shown, Some n, Ok (seen ++ [Wrote outBts], Some "Write error"%string, []))
              | Throw e => (shown, Some n, Throw e)
              | UB => (shown, Some n, UB)
              | Hang => (shown, Some n, Hang)
              | NoFuel => (shown, Some n, NoFuel)
              end
          end
      (* fixup_scale: the page is still there *)
      | Throw e => (start ++ [GetPage pageNo; PageSize pageNo] ++ (if has pageNo then [UnrefPage pageNo] else []), Some n, Throw e)
      | UB => (start ++ [GetPage pageNo; PageSize pageNo], Some n, UB)
      | Hang => (start ++ [GetPage pageNo; PageSize pageNo], Some n, Hang)
      | NoFuel => (start ++ [GetPage pageNo; PageSize pageNo], Some n, NoFuel)
      end
  end.

(** The destructors in the reverse order of the declarations: error_p (91), doc (76),
    outBts (74), cairo (71), surface (70), and the libraries (64).  Pointers that are null
    are left alone. *)
Definition unwind (madness failed opened : bool) (cairo : option Z) (surface : bool) : list call :=
  (if failed then [FreeError] else []) ++ (if opened then [UnrefDocument] else []) ++ [EndStream] ++
  match cairo with Some n => [DestroyContext n] | None => [] end ++
  (if surface then [DestroySurface] else []) ++ (if madness then [Unload] else []).
(** a result other than undefined behaviour ends the function: the destructors run *)
Definition leave {A} (o : outcome A) (l : list call) : list call := match o with Ok _ | Throw _ => l | _ => [] end.

(** pdf2printable.cpp:106-137 *)
Definition surface_calls (p : params) : list call :=
  match p_format p with
  | PWG | URF => [CreateSurface false]
  | PDF => [CreateSurface true; OnSurface "restrict_to_version"; OnSurface "set_metadata"]
  | Postscript => [CreateSurface true; OnSurface "restrict_to_level"]
  | Invalid => []
  end.
(** pdf2printable.cpp:55-220: the calls.  The exception of std::filesystem::absolute (85) is
    not included. *)
Definition pdf_calls (madness : bool) (has : Z -> bool) (r : renderer) (wr : writer) (p : params) : list call :=
  if match p_format p with URF => negb (p_hwResW p =? p_hwResH p) | _ => false end then []
  else
    (if madness then [Load] else []) ++ [BeginStream; OpenDocument] ++
    match r_pages r with
    | None => [ReadError] ++ unwind madness true false None false
    | Some pages =>
        [CountPages] ++
        match getPageSequence p pages with
        | Ok seq =>
            let total := Z.of_nat (length seq) in
            match (if is_raster p then
                     let! _ := getPaperSizeWInPixels p in
                     let! _ := getPaperSizeHInPixels p in
                     Ok (match p_format p with URF => make_urf_file_hdr total | _ => make_pwg_file_hdr end)
                   else Ok []) with
            | Ok outBts =>
                match p_format p with
                | Invalid => unwind madness false true None false
                | _ =>
                    let '(l, cairo, o) := page_calls has r wr p total seq 0 None [] outBts [] in
                    surface_calls p ++ [OnSurface "set_fallback_resolution"] ++ l ++
                    (match o with Ok (_, None, _) => [Finish] | _ => [] end) ++
                    leave o (unwind madness false true cairo true)
                end
            | o => leave o (unwind madness false true None false)
            end
        | o => leave o (unwind madness false true None false)
        end
    end.
