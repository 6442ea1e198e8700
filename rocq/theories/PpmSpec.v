(** What a raw PNM file is (netpbm's ppm(5), pgm(5), pbm(5)), independent of the model. *)
From Verif Require Import Base.
Local Open Scope Z_scope.

Definition white (c : byte) : Prop := In c (map bZ [32; 9; 10; 11; 12; 13]).
Definition newline : byte := bZ 10.

(** decimal digits of a number, leading zeros allowed *)
Inductive number : list byte -> Z -> Prop :=
| number_one : forall d, 0 <= d <= 9 -> number [bZ (48 + d)] d
| number_more : forall l v d, number l v -> 0 <= d <= 9 -> number (l ++ [bZ (48 + d)]) (10 * v + d).

(** a comment line *)
Definition comment_line (l : list byte) : Prop :=
  exists body, l = bZ 35 :: body ++ [newline] /\ ~ In newline body.

Inductive pnm_kind := PGM8 | PPM8 | PGM16 | PPM16 | PBM.
(** "P4", "P5", "P6" *)
Definition magic_of (k : pnm_kind) : list byte :=
  match k with PBM => map bZ [80; 52] | PGM8 | PGM16 => map bZ [80; 53] | PPM8 | PPM16 => map bZ [80; 54] end.
(** "255", "65535"; PBM has no maximum value *)
Definition maxval_of (k : pnm_kind) : option (list byte) :=
  match k with
  | PBM => None
  | PGM8 | PPM8 => Some (map bZ [50; 53; 53])
  | PGM16 | PPM16 => Some (map bZ [54; 53; 53; 51; 53])
  end.
(** bytes of a row of [w] pixels *)
Definition row_bytes (k : pnm_kind) (w : Z) : Z :=
  match k with PBM => (w + 7) / 8 | PGM8 => w | PPM8 => 3 * w | PGM16 => 2 * w | PPM16 => 6 * w end.

Record picture := mkPic { pic_kind : pnm_kind; pic_w : Z; pic_h : Z; pic_data : list byte }.
Definition picture_ok (q : picture) : Prop :=
  1 <= pic_w q /\ 1 <= pic_h q /\ Z.of_nat (length (pic_data q)) = pic_h q * row_bytes (pic_kind q) (pic_w q).

(** Magic number, white space, width, white space, height, (white space, maximum value,)
    one white space character [tail], the data.  Of the comments netpbm allows anywhere
    in the header only whole comment lines directly after the magic number's newline are
    described. *)
Definition white_gap (l : list byte) : Prop := l <> [] /\ Forall white l.
Definition magic_gap (l : list byte) : Prop :=
  white_gap l \/
  exists comments gap, l = newline :: concat comments ++ gap /\ Forall comment_line comments /\ Forall white gap.
Definition maxval_part (k : pnm_kind) (l : list byte) : Prop :=
  match maxval_of k with
  | Some m => exists gap, white_gap gap /\ l = gap ++ m
  | None => l = []
  end.
Definition pnm_header (k : pnm_kind) (w h : Z) (tail : byte) (hdr : list byte) : Prop :=
  exists gap0 ws gap1 hs mpart,
    hdr = magic_of k ++ gap0 ++ ws ++ gap1 ++ hs ++ mpart ++ [tail] /\
    magic_gap gap0 /\ number ws w /\ white_gap gap1 /\ number hs h /\ maxval_part k mpart /\ white tail.
Definition pnm_text (tail : byte) (q : picture) (text : list byte) : Prop :=
  picture_ok q /\
  exists hdr, pnm_header (pic_kind q) (pic_w q) (pic_h q) tail hdr /\ text = hdr ++ pic_data q.
