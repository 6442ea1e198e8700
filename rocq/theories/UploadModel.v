(** lib/converter.h:34-88: the conversions, and what of their output goes to the printer. *)
From Verif Require Import Base FloatModel StringModel ParamsModel IppModel ConverterModel JobModel RenderModel PrinterModel.
Local Open Scope Z_scope.

(** The documents: [d_file]: the contents of a file (the standard input for -), None if it
    cannot be opened (binfile.h:15-26); [d_pdf]: what poppler and cairo make of it
    (std::filesystem::absolute may throw); [d_jpeg]: what baselinify makes of the contents *)
Record documents := mkDocs {
  d_file : string -> option (list byte);
  d_pdf : string -> outcome renderer;
  d_jpeg : list byte -> outcome (list byte)
}.
(** a conversion that writes once: converter.h:39-88; what the writer answers is not used *)
Definition convert_once (D : documents) (f : list byte -> outcome (list byte)) (inFile : string) : outcome (list RenderModel.event * option string) :=
  match d_file D inFile with
  | None => Ok ([], Some "Failed to open input"%string)
  | Some b => let! b := f b in Ok ([RenderModel.Wrote b; Progress 1 1], None)
  end.
(** the conversions: converter.h:34-88 *)
Definition convert (D : documents) (wr : writer) (conv : conversion) (inFile : string) (j : job) : outcome (list RenderModel.event * option string) :=
  match conv with
  | Pdf2Printable => let! r := d_pdf D inFile in pdf_to_printable r wr (j_params j)
  | Baselinify => convert_once D (d_jpeg D) inFile
  | JustUpload => convert_once D (fun b => Ok b) inFile
  | FixupText => convert_once D (fun b => Ok (bytes_of_string (fixup_text (string_of_bytes b)))) inFile
  end.

(** writeFun of IppPrinter::doPrint: ippprinter.cpp:151-156, given what the streamer
    answers *)
Definition upload_writer (takes : writer) : writer := fun seen data => match data with [] => true | _ => takes seen data end.
(** the chunks the streamer took *)
Fixpoint taken (takes : writer) (seen rest : list RenderModel.event) : list (list byte) :=
  match rest with
  | [] => []
  | RenderModel.Wrote [] :: rest' => taken takes (seen ++ [RenderModel.Wrote []]) rest'
  | RenderModel.Wrote b :: rest' => (if takes seen b then [b] else []) ++ taken takes (seen ++ [RenderModel.Wrote b]) rest'
  | e :: rest' => taken takes (seen ++ [e]) rest'
  end.

(** The outside: environment, exceptions' texts, posting, whether the streamer takes a
    chunk in an upload (CurlIppStreamer::write, CurlModel), and what an upload of these
    chunks ends with. *)
Record outside := mkOutside {
  o_user : option string;
  o_what : exn -> string;
  o_post : string -> list byte -> reply;
  o_takes : conversion -> string -> job -> writer;
  o_reply : string -> list byte -> compression -> list (list byte) -> reply;
  o_temp : string
}.
(** The world of PrinterModel with these conversions; a conversion that does not end
    normally is not followed by await (ippprinter.cpp:158-165). *)
Definition world_of (D : documents) (O : outside) : world :=
  let run conv inFile j := convert D (upload_writer (o_takes O conv inFile j)) conv inFile j in
  mkWorld (o_user O) (o_what O) (o_post O)
    (fun conv inFile j => let! (_, error) := run conv inFile j in Ok error)
    (fun addr hdr c conv inFile j =>
       match run conv inFile j with
       | Ok (ev, _) => o_reply O addr hdr c (taken (o_takes O conv inFile j) [] ev)
       | _ => Failed ""
       end)
    (o_temp O).
