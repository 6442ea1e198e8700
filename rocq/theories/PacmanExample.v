(** The reference files of the project's own tests (tests/pacman.ppm and tests/pacman.pwg):
    the model of ppm2pwg and pwg2ppm maps one to the other, byte for byte. *)
From Verif Require Import Base StringModel ParamsModel RasterModel HeaderModel PpmModel.
Local Open Scope Z_scope.

Definition pacman_ppm : list byte :=
  map bZ [80; 54; 10; 56; 32; 56; 10; 50; 53; 53; 10; 255; 255; 255; 255; 255; 0; 255; 255; 0; 255; 255; 0]
  ++ repeat (bZ 255) 14
  ++ map bZ [0; 0; 0; 255; 255; 255; 0]
  ++ repeat (bZ 255) 9
  ++ map bZ [0; 255; 0; 255; 255; 255; 255; 255; 0; 255; 255; 0]
  ++ repeat (bZ 255) 9
  ++ map bZ [0; 255; 0; 0; 255; 0; 0; 255; 0; 255; 255; 0; 255; 255; 0; 255; 255; 0]
  ++ repeat (bZ 255) 9
  ++ map bZ [0; 255; 0]
  ++ repeat (bZ 255) 8
  ++ map bZ [0; 255; 255; 0; 255; 255; 0]
  ++ repeat (bZ 255) 37
  ++ map bZ [0; 0; 255; 0; 0; 255; 0; 0; 255; 0; 0; 255; 0; 0; 255; 0; 0; 255; 0; 0; 255; 0; 0; 255; 0; 0; 255; 0; 0; 255; 0; 0; 255; 0; 0; 255; 0; 0; 255; 0; 0; 255; 0; 0; 255; 0; 0].
Definition pacman_pwg : list byte :=
  map bZ [82; 97; 83; 50; 80; 119; 103; 82; 97; 115; 116; 101; 114]
  ++ repeat (bZ 0) 269
  ++ map bZ [1; 44; 0; 0; 1; 44]
  ++ repeat (bZ 0) 59
  ++ map bZ [1]
  ++ repeat (bZ 0) 11
  ++ map bZ [2; 0; 0; 0; 2]
  ++ repeat (bZ 0) 15
  ++ map bZ [8; 0; 0; 0; 8; 0; 0; 0; 0; 0; 0; 0; 8; 0; 0; 0; 24; 0; 0; 0; 24; 0; 0; 0; 0; 0; 0; 0; 19]
  ++ repeat (bZ 0) 19
  ++ map bZ [3]
  ++ repeat (bZ 0) 35
  ++ map bZ [1; 0; 0; 0; 1]
  ++ repeat (bZ 0) 17
  ++ map bZ [255; 255; 255]
  ++ repeat (bZ 0) 1248
  ++ map bZ [105; 115; 111; 95; 97; 52; 95; 50; 49; 48; 120; 50; 57; 55; 109; 109]
  ++ repeat (bZ 0) 50
  ++ map bZ [255; 255; 255; 2; 255; 255; 0; 3; 255; 255; 255; 0; 254; 255; 255; 0; 0; 0; 255; 255; 255; 0; 2; 255; 255; 255; 255; 0; 255; 0; 255; 255; 255; 0; 1; 255; 255; 0; 2; 255; 255; 255; 2; 0; 255; 0; 0; 2; 255; 255; 0; 2; 255; 255; 255; 255; 0; 255; 0; 255; 255; 255; 0; 0; 255; 255; 255; 2; 255; 255; 0; 3; 255; 255; 255; 0; 7; 255; 255; 255; 1; 7; 255; 0; 0].
Definition pacman_options : ppm_opts :=
  mkPpmOpts (Some PWG) None None (Some 300) None None false false None None None None "pacman.pwg".
Example pacman_to_pwg : ppm2pwg_main pacman_options pacman_ppm = Ok (0, pacman_pwg).
Proof. vm_compute. reflexivity. Qed.
Example pacman_to_ppm : pwg2ppm pacman_pwg "pacman" = Ok (0, [("pacman1.ppm"%string, pacman_ppm)]).
Proof. vm_compute. reflexivity. Qed.
