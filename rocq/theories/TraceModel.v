(** utils/pwg2ppm_main.cpp with what it writes to the standard error and the files that are
    there when it ends with an exception.  The files are written in the order of the pages. *)
From Verif Require Import Base StringModel ParamsModel HeaderModel RasterModel PpmModel HelpModel TellModel.
Local Open Scope Z_scope.

(** standard error, files in the order written, and how it ends *)
Record trace (A : Type) := mkTrace { tr_err : string; tr_files : list (string * list byte); tr_end : outcome A }.
Arguments mkTrace {A}. Arguments tr_err {A}. Arguments tr_files {A}. Arguments tr_end {A}.
Definition says {A} (text : string) (t : trace A) : trace A := mkTrace (text ++ tr_err t) (tr_files t) (tr_end t).
Definition writes {A} (f : string * list byte) (t : trace A) : trace A := mkTrace (tr_err t) (f :: tr_files t) (tr_end t).
(** an operation that can fail and says nothing *)
Definition tries {A B} (x : outcome A) (k : A -> trace B) : trace B :=
  match x with
  | Ok a => k a
  | Throw e => mkTrace "" [] (Throw e)
  | UB => mkTrace "" [] UB
  | Hang => mkTrace "" [] Hang
  | NoFuel => mkTrace "" [] NoFuel
  end.
(** std::cerr << "Page " << ++pages << std::endl *)
Definition page_line (page : Z) : string := "Page " ++ dec_string page ++ endl.

(** pwg2ppm_main.cpp:31-42; [describe] is PwgPgHdr::describe (bytestream submodule).  The
    result is the number of pages. *)
Fixpoint pwg_trace (describe : pwg_hdr -> string) (fuel : nat) (file : list byte) (page : Z) (prefix : string) : trace Z :=
  match fuel with
  | O => mkTrace "" [] NoFuel
  | S f =>
      match file with
      | [] => mkTrace "" [] (Ok page)
      | _ =>
          let page := page + 1 in
          says (page_line page)
            (tries (decode_pwg_hdr file) (fun '(h, file) =>
               says (describe h ++ endl)
                 (tries (raster_to_bmp file (h_BytesPerLine h) (h_Height h) (h_NumColors h) false) (fun '(bmp, file) =>
                    writes (write_ppm bmp (h_Width h) (h_Height h) (h_NumColors h) (h_BitsPerColor h) (h_ColorSpace h =? 3) prefix page)
                      (pwg_trace describe f file page prefix)))))
      end
  end.
(** pwg2ppm_main.cpp:50-61; [describe] is UrfPgHdr::describe *)
Fixpoint urf_trace (describe : urf_hdr -> string) (fuel : nat) (file : list byte) (page : Z) (prefix : string) : trace Z :=
  match fuel with
  | O => mkTrace "" [] NoFuel
  | S f =>
      match file with
      | [] => mkTrace "" [] (Ok page)
      | _ =>
          let page := page + 1 in
          says (page_line page)
            (tries (decode_urf_hdr file) (fun '(h, file) =>
               says (describe h ++ endl)
                 (let bytes := u_BitsPerPixel h / 8 in
                  let byteWidth := (u_Width h * bytes) mod two32 in
                  tries (raster_to_bmp file byteWidth (u_Height h) bytes true) (fun '(bmp, file) =>
                    writes (write_ppm bmp (u_Width h) (u_Height h) bytes 8 false prefix page)
                      (urf_trace describe f file page prefix)))))
      end
  end.
(** pwg2ppm_main.cpp:68-69 *)
Definition total (t : trace Z) : trace Z :=
  match tr_end t with
  | Ok pages => mkTrace (tr_err t ++ "Total pages: " ++ dec_string pages ++ endl) (tr_files t) (Ok 0)
  | _ => t
  end.
(** pwg2ppm_main.cpp:19-69 *)
Definition pwg2ppm_trace (dp : pwg_hdr -> string) (du : urf_hdr -> string) (file : list byte) (prefix : string) : trace Z :=
  says ("File is " ++ dec_string (Z.of_nat (length file)) ++ " long" ++ endl)
    (match eat (bytes_of_string "RaS2") file with
     | Some file => says ("Smells like PWG Raster" ++ endl) (total (pwg_trace dp (S (length file)) file 0 prefix))
     | None =>
         match eat (bytes_of_string "UNIRAST") file with
         | Some file =>
             tries (get_u8 file) (fun '(zero, file) =>
               if zero =? 0 then
                 tries (get_u32 file) (fun '(pageCount, file) =>
                   says ("Smells like URF Raster, with " ++ dec_string pageCount ++ " pages" ++ endl) (total (urf_trace du (S (length file)) file 0 prefix)))
               else mkTrace "" [] (Throw BadMatch))
         | None => mkTrace ("Unknown file format" ++ endl) [] (Ok 1)
         end
     end).
(** pwg2ppm_main.cpp:8-70; a file that cannot be opened is read as empty *)
Definition pwg2ppm_tells (dp : pwg_hdr -> string) (du : urf_hdr -> string) (files : string -> option (list byte)) (args : list string) : trace Z :=
  match args with
  | [i; prefix] => pwg2ppm_trace dp du (match files i with Some file => file | None => [] end) prefix
  | _ => mkTrace ("Usage: pwg2ppm <infile> <outfile prefix>" ++ endl) [] (Ok 1)
  end.
