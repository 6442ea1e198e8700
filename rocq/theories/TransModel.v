(** lib/baselinify.cpp: the calls of libjpeg.  The managers for input and output are in
    JpegModel; what libjpeg does is specified in TransSpec. *)
From Verif Require Import Base.
Local Open Scope Z_scope.

(** libjpeg's functions, and the fields of its structs that are assigned *)
Inductive call :=
| CreateDecompress | CreateCompress | SetSource | SaveMarkers (code limit : Z) | ReadHeader | ReadCoefficients
| CopyCritical | WriteJfif (b : bool) | WriteAdobe (b : bool) | SetDestination | WriteCoefficients
| WriteMarker (code : Z) (data : list byte) | FinishCompress | DestroyCompress | FinishDecompress | DestroyDecompress.
(** jpeg_marker_struct *)
Record marker := mkMarker { mk_code : Z; mk_data : list byte }.

(** baselinify.cpp:91-117; JPEG_APP0 is 0xe0 *)
Definition calls_before : list call :=
  [CreateDecompress; CreateCompress; SetSource; SaveMarkers 0xe0 0xffff; SaveMarkers 0xe1 0xffff; ReadHeader;
   ReadCoefficients; CopyCritical; WriteJfif false; WriteAdobe false; SetDestination; WriteCoefficients].
(** baselinify.cpp:119-122 *)
Definition calls_markers (marker_list : list marker) : list call := map (fun m => WriteMarker (mk_code m) (mk_data m)) marker_list.
(** baselinify.cpp:124-127 *)
Definition calls_after : list call := [FinishCompress; DestroyCompress; FinishDecompress; DestroyDecompress].

(** baselinify: baselinify.cpp:80-128, with a library that is in some state and to which the
    calls are made; [None]: it was used in a way that is not allowed *)
Fixpoint make_calls {S} (step : S -> call -> option S) (l : list call) (s : S) : option S :=
  match l with
  | [] => Some s
  | c :: l' => match step s c with Some s' => make_calls step l' s' | None => None end
  end.
Definition baselinify {S} (step : S -> call -> option S) (marker_list : S -> list marker) (s : S) : option S :=
  match make_calls step calls_before s with
  | Some s1 =>
      match make_calls step (calls_markers (marker_list s1)) s1 with
      | Some s2 => make_calls step calls_after s2
      | None => None
      end
  | None => None
  end.
