(** lib/baselinify.cpp: the source and destination managers libjpeg calls.  libjpeg itself
    is outside the model: it is the sequence of its accesses to the two managers. *)
From Verif Require Import Base RenderModel.
Local Open Scope Z_scope.

(** ** bts_source_mgr: baselinify.cpp:9-44 *)
(** next_input_byte (as an index into the data) and bytes_in_buffer (a size_t).  Moving the
    pointer beyond the data is allowed here, only reading there is undefined. *)
Record source := mkSource { s_next : Z; s_left : Z }.
(** baselinify.cpp:23-24 *)
Definition source_init (data : list byte) : source := mkSource 0 (Z.of_nat (length data)).
(** baselinify.cpp:29-32: TRUE, without any more data *)
Definition fill_input_buffer (s : source) : bool * source := (true, s).
(** baselinify.cpp:34-39; long converted to size_t *)
Definition skip_input_data (s : source) (numBytes : Z) : source :=
  mkSource (s_next s + numBytes) ((s_left s - numBytes) mod two64).
(** What libjpeg does with the source: it takes a byte, after fill_input_buffer if
    bytes_in_buffer is 0 (INPUT_BYTE in jdmarker.c, jpeg_fill_bit_buffer in jdhuff.c; FALSE
    suspends), or it skips. *)
Inductive source_op := TakeByte | Skip (n : Z).
Inductive taken := Suspended | Taken (b : byte) (s : source).
Definition take_byte (data : list byte) (s : source) : outcome taken :=
  let '(ok, s) := if s_left s =? 0 then fill_input_buffer s else (true, s) in
  if negb ok then Ok Suspended
  else
    let! b := get_at data (s_next s) in
    Ok (Taken b (mkSource (s_next s + 1) ((s_left s - 1) mod two64))).
(** the bytes delivered; None: suspended *)
Fixpoint run_source (data : list byte) (s : source) (ops : list source_op) : outcome (option (list byte)) :=
  match ops with
  | [] => Ok (Some [])
  | Skip n :: ops' => run_source data (skip_input_data s n) ops'
  | TakeByte :: ops' =>
      let! t := take_byte data s in
      match t with
      | Suspended => Ok None
      | Taken b s' => let! r := run_source data s' ops' in Ok (option_map (cons b) r)
      end
  end.

(** ** bts_destination_mgr: baselinify.cpp:46-78 *)
(** the buffer, next_output_byte (an index into it), free_in_buffer and outBts; [size] is
    BS_REASONABLE_FILE_SIZE, a constant of the bytestream submodule *)
Record destination := mkDest { d_buffer : list byte; d_next : Z; d_free : Z; d_out : list byte }.
(** baselinify.cpp:48-55; the contents of the buffer are arbitrary *)
Definition dest_init (size : Z) (garbage : list byte) (out : list byte) : destination := mkDest garbage 0 size out.
(** baselinify.cpp:59-67; putBytes reads [size] bytes of the buffer *)
Definition put_bytes (buffer : list byte) (n : Z) (out : list byte) : outcome (list byte) :=
  if (0 <=? n) && (n <=? Z.of_nat (length buffer)) then Ok (out ++ firstn (Z.to_nat n) buffer) else UB.
Definition empty_output_buffer (size : Z) (d : destination) : outcome destination :=
  let! out := put_bytes (d_buffer d) size (d_out d) in
  Ok (mkDest (d_buffer d) 0 size out).
(** baselinify.cpp:69-74; size_t arithmetic *)
Definition term_destination (size : Z) (d : destination) : outcome (list byte) :=
  put_bytes (d_buffer d) ((size - d_free d) mod two64) (d_out d).
(** What libjpeg does: it stores bytes and calls empty_output_buffer when free_in_buffer
    has become 0 (emit_byte in jcmarker.c and jchuff.c), and term_destination at the end
    (jpeg_finish_compress). *)
Definition emit_byte (size : Z) (d : destination) (b : byte) : outcome destination :=
  let! buffer := set_at (d_buffer d) (d_next d) b in
  let d := mkDest buffer (d_next d + 1) ((d_free d - 1) mod two64) (d_out d) in
  if d_free d =? 0 then empty_output_buffer size d else Ok d.
Fixpoint emit_bytes (size : Z) (d : destination) (l : list byte) : outcome destination :=
  match l with
  | [] => Ok d
  | b :: l' => let! d := emit_byte size d b in emit_bytes size d l'
  end.
Definition run_destination (size : Z) (garbage out l : list byte) : outcome (list byte) :=
  let! d := emit_bytes size (dest_init size garbage out) l in term_destination size d.
