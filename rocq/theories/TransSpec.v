(** C105: what libjpeg does with the calls of transcoding (libjpeg.txt, "Really raw data: DCT
    coefficients" and "Special markers"; jcapimin.c, jctrans.c, jdapimin.c, jdtrans.c), and what
    a JPEG file means. *)
From Verif Require Import Base TransModel.
Local Open Scope Z_scope.

(** ** JPEG files *)
(** the application markers and comments in their order, the identifiers of the components,
    the quantization tables, the quantized coefficients, and how these are coded *)
Record jpeg := mkJpeg { j_markers : list marker; j_comps : list Z; j_quant : list (list Z); j_coefs : list (list Z); j_progressive : bool }.
(** a marker segment has at most 65533 bytes of data *)
Definition valid_jpeg (f : jpeg) : Prop := Forall (fun m => Z.of_nat (length (mk_data m)) <= 65533) (j_markers f).
(** ITU-T T.81: what a decoder for baseline files can read *)
Definition baseline (f : jpeg) : Prop := j_progressive f = false /\ Forall (Forall (fun q => q <= 255)) (j_quant f).
(** JFIF: an APP0 marker of at least 14 bytes that begin with JFIF and a zero *)
Definition jfif (f : jpeg) : Prop := exists m rest, In m (j_markers f) /\ mk_code m = 0xe0 /\ mk_data m = bytes_of_string "JFIF" ++ bZ 0 :: rest /\ (9 <= length rest)%nat.
(** Adobe Technical Note 5116: an APP14 marker, its twelfth byte being the transformation.  If
    there are several the last counts. *)
Definition adobe_segment (m : marker) (transform : Z) : Prop :=
  mk_code m = 0xee /\ exists six rest t, mk_data m = bytes_of_string "Adobe" ++ six ++ t :: rest /\ length six = 6%nat /\ transform = Zb t.
Definition adobe (f : jpeg) (transform : Z) : Prop := exists l m l', j_markers f = l ++ m :: l' /\ adobe_segment m transform /\ forall m' t, In m' l' -> ~ adobe_segment m' t.
Definition no_adobe (f : jpeg) : Prop := forall m t, In m (j_markers f) -> ~ adobe_segment m t.
(** The colours the components stand for, as decoders take them (default_decompress_parms in
    jdapimin.c, after JFIF and Adobe's note). *)
Inductive colours := Grey | YCbCr | RGB | CMYK | YCCK | Unknown.
Definition letters_rgb (f : jpeg) : Prop := j_comps f = [82; 71; 66].
Inductive shows : jpeg -> colours -> Prop :=
| shows_grey f a : j_comps f = [a] -> shows f Grey
| shows_jfif f a b c : j_comps f = [a; b; c] -> jfif f -> shows f YCbCr
| shows_adobe_rgb f a b c : j_comps f = [a; b; c] -> ~ jfif f -> adobe f 0 -> shows f RGB
| shows_adobe_ycc f a b c t : j_comps f = [a; b; c] -> ~ jfif f -> adobe f t -> t <> 0 -> shows f YCbCr
| shows_letters f : letters_rgb f -> ~ jfif f -> no_adobe f -> shows f RGB
| shows_ycc f a b c : j_comps f = [a; b; c] -> ~ letters_rgb f -> ~ jfif f -> no_adobe f -> shows f YCbCr
| shows_adobe_cmyk f a b c d : j_comps f = [a; b; c; d] -> adobe f 0 -> shows f CMYK
| shows_adobe_ycck f a b c d t : j_comps f = [a; b; c; d] -> adobe f t -> t <> 0 -> shows f YCCK
| shows_cmyk f a b c d : j_comps f = [a; b; c; d] -> no_adobe f -> shows f CMYK
| shows_unknown f : ~ In (length (j_comps f)) [1; 3; 4]%nat -> shows f Unknown.

(** ** libjpeg *)
(** the states of the two objects (global_state in jpegint.h) *)
Inductive dstate := NoDecompressor | DStart | DReady | DCoefs | DGone.
Inductive cstate := NoCompressor | CStart | CWriting | CGone.
(** what jpeg_copy_critical_parameters has copied: tables and components *)
Record lib := mkLib {
  l_d : dstate; l_c : cstate; l_source : bool; l_dest : bool;
  l_limits : list (Z * Z);        (* jpeg_save_markers *)
  l_markers : list marker;        (* marker_list *)
  l_params : option (list Z * list (list Z));
  l_jfif : bool; l_adobe : bool;  (* write_JFIF_header, write_Adobe_marker *)
  l_written : list marker;        (* segments written by the compressor *)
  l_result : option jpeg }.
Definition lib_start : lib := mkLib NoDecompressor NoCompressor false false [] [] None false false [] None.
(** markers that are kept: those asked for, up to the limit *)
Definition limit_for (l : list (Z * Z)) (code : Z) : Z := match find (fun x => fst x =? code) l with Some x => snd x | None => 0 end.
Definition kept (l : list (Z * Z)) (ms : list marker) : list marker :=
  flat_map (fun m => if limit_for l (mk_code m) =? 0 then [] else [mkMarker (mk_code m) (firstn (Z.to_nat (limit_for l (mk_code m))) (mk_data m))]) ms.
(** The answers to the calls for a file; [None] where libjpeg ends the program with an error, or
    its use is not defined.  [auto_jfif] and [auto_adobe]: does it write the markers by default
    for the colours of the file, and [jfif_data] and [adobe_data]: what they say. *)
Record defaults := mkDefaults { auto_jfif : bool; auto_adobe : bool; jfif_data : list byte; adobe_data : list byte }.
Definition step (df : defaults) (f : jpeg) (s : lib) (c : call) : option lib :=
  let (d, k, src, dst, lim, ms, par, wj, wa, wr, res) := s in
  match c with
  | CreateDecompress => match d with NoDecompressor => Some (mkLib DStart k src dst lim ms par wj wa wr res) | _ => None end
  | CreateCompress => match k with NoCompressor => Some (mkLib d CStart src dst lim ms par wj wa wr res) | _ => None end
  | SetSource => match d with DStart => Some (mkLib d k true dst lim ms par wj wa wr res) | _ => None end
  | SaveMarkers code limit => match d with DStart => Some (mkLib d k src dst ((code, limit) :: lim) ms par wj wa wr res) | _ => None end
  | ReadHeader => match d, src with DStart, true => Some (mkLib DReady k src dst lim ms par wj wa wr res) | _, _ => None end
  (* all of the file is read *)
  | ReadCoefficients => match d with DReady => Some (mkLib DCoefs k src dst lim (kept lim (j_markers f)) par wj wa wr res) | _ => None end
  (* sets all parameters of the compressor to defaults first *)
  | CopyCritical =>
      match d, k with
      | DReady, CStart | DCoefs, CStart => Some (mkLib d k src dst lim ms (Some (j_comps f, j_quant f)) (auto_jfif df) (auto_adobe df) wr res)
      | _, _ => None
      end
  | WriteJfif b => match k with CStart => Some (mkLib d k src dst lim ms par b wa wr res) | _ => None end
  | WriteAdobe b => match k with CStart => Some (mkLib d k src dst lim ms par wj b wr res) | _ => None end
  | SetDestination => match k with CStart => Some (mkLib d k src true lim ms par wj wa wr res) | _ => None end
  | WriteCoefficients =>
      match d, k, dst, par with
      | DCoefs, CStart, true, Some _ =>
          Some (mkLib d CWriting src dst lim ms par wj wa ((if wj then [mkMarker 0xe0 (jfif_data df)] else []) ++ (if wa then [mkMarker 0xee (adobe_data df)] else [])) res)
      | _, _, _, _ => None
      end
  | WriteMarker code data =>
      match k with
      | CWriting => if Z.of_nat (length data) <=? 65533 then Some (mkLib d k src dst lim ms par wj wa (wr ++ [mkMarker code data]) res) else None
      | _ => None
      end
  (* the coefficients, which belong to the decompressor, are written here *)
  | FinishCompress =>
      match d, k, par with
      | DCoefs, CWriting, Some (cs, qs) => Some (mkLib d CStart src dst lim ms par wj wa wr (Some (mkJpeg wr cs qs (j_coefs f) false)))
      | _, _, _ => None
      end
  | DestroyCompress => match k with CStart => Some (mkLib d CGone src dst lim ms par wj wa wr res) | _ => None end
  | FinishDecompress => match d with DCoefs => Some (mkLib DStart k src dst lim [] par wj wa wr res) | _ => None end
  | DestroyDecompress => match d with DStart => Some (mkLib DGone k src dst lim ms par wj wa wr res) | _ => None end
  end.
(** the files made of a file *)
Definition made (df : defaults) (f out : jpeg) : Prop := exists s, baselinify (step df f) l_markers lib_start = Some s /\ l_result s = Some out /\ l_d s = DGone /\ l_c s = CGone.
(** ** The claim *)
(** JFIF and EXIF data: the markers APP0 and APP1 *)
Definition app01 (m : marker) : bool := (mk_code m =? 0xe0) || (mk_code m =? 0xe1).
(** the same picture, sequentially coded *)
Definition same_picture (f out : jpeg) : Prop := j_comps out = j_comps f /\ j_quant out = j_quant f /\ j_coefs out = j_coefs f /\ j_progressive out = false.
