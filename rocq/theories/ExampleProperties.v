(** Further examples that meet the hypotheses of theorems of other files. *)
From Verif Require Import Base BaseLemmas FloatModel StringModel ParamsModel RasterModel HeaderModel HeaderSpec RasterSpec RasterProperties IppModel SettingModel JsonModel JsonSpec SettingsModel SettingsProofs DumpProofs ParserProperties CurlModel CurlSpec CurlProperties ClientModel ClientSpec ClientProperties.
From Coq Require Import Lia.
Local Open Scope Z_scope.

(** C04: the back side of a page of 3 by 2 RGB pixels, the buffer being larger than needed *)
Example C04_example : let p := sample PWG sRGB24 TwoSidedLongEdge Rotated 3 2 in sane_geometry p /\ getPaperSizeWInPixels p = Ok 3 /\ getPaperSizeHInPixels p = Ok 2 /\ line_bytes (p_colorMode p) 3 < 2 ^ 31 /\
  body_of 1796 (bmp_to_pwg (map bZ [1; 2; 3; 4; 5; 6; 7; 8; 9; 1; 2; 3; 4; 5; 6; 7; 8; 9; 77]) 2 p) = map bZ [1; 254; 7; 8; 9; 4; 5; 6; 1; 2; 3].
Proof. cbv zeta. split; [exact sample_is_sane|]. split; [vm_compute; reflexivity|]. split; [vm_compute; reflexivity|]. split; vm_compute; reflexivity. Qed.
(** C07: a page, one that is cut off and one that never ends *)
Example C07_example :
  raster_to_bmp (map bZ [1; 1; 7; 8; 9; 200]) 2 2 1 false = Ok (map bZ [7; 7; 7; 7], map bZ [8; 9; 200]) /\
  raster_to_bmp (map bZ [1; 1]) 2 2 1 false = Throw OutOfRange /\
  raster_to_bmp (map bZ [0; 1; 255; 128]) 1 1 1 true = Hang.
Proof. repeat split; vm_compute; reflexivity. Qed.
Example C07_hang_example : fill_white (map bZ [1]) 3 (map bZ [255; 255; 255]) = Hang.
Proof. vm_compute. reflexivity. Qed.
(** C08: a URF line of three pixels that is the fill code, and what follows *)
Example C08_example : raster_to_bmp (map bZ [0; 128; 9]) 9 1 3 true = Ok (repeat (bZ 255) 9, [bZ 9]).
Proof. vm_compute. reflexivity. Qed.
(** C50: an upload that fails after two chunks *)
Example C50_indistinguishable_example : forall z, exists s s', let hdr := map bZ [1; 2] in let chunks := [map bZ [3]; map bZ [4; 5]] in
  reachable z (do_print hdr NoCompression chunks true) s /\ complete s /\ reachable z (do_print hdr NoCompression chunks false) s' /\ complete s' /\ delivered (s_sent s) = delivered (s_sent s').
Proof. intros z. apply C50_indistinguishable. discriminate. Qed.
(** C60: the reference parser on the text of an object with a list *)
Example C60_parser_example : reference (dump (JObj [("a"%string, JArr [JInt 1; JStr "x"%string; JBool true])])) = Some (JObj [("a"%string, JArr [JInt 1; JStr "x"%string; JBool true])]) /\ reference (map bZ [123]) = None.
Proof. split; vm_compute; reflexivity. Qed.
(** C74: one resolution in DPI among others *)
Example C74_single_example : (length (filter dpi [VRes 118 118 4; VRes 600 300 3]) <= 1)%nat /\ resolution_texts true [VRes 118 118 4; VRes 600 300 3] = "600x300dpi"%string.
Proof. split; [cbn; lia|vm_compute; reflexivity]. Qed.
