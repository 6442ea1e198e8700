(** Independent specification of raster page bodies (PWG 5102.4 section 4.4 and the
    URF variant) and of bitmaps.  No definition of the model is used. *)
From Verif Require Import Base.

(** A pixel is the group of bytes that belong to one pixel (one byte for 1-bit
    modes, where 8 pixels share a byte); a line is a list of pixels; an image a list
    of lines. *)
Notation pixel := (list byte) (only parsing).
Notation line := (list (list byte)) (only parsing).
Notation image := (list (list (list byte))) (only parsing).

(** the flat bitmap of an image: lines one after another, without padding *)
Definition flat (img : image) : list byte := concat (map (@concat byte) img).

(** an image with [h] lines of [w] pixels of [c] bytes *)
Definition image_of_size (c w h : nat) (img : image) : Prop :=
  length img = h /\
  Forall (fun l : line => length l = w /\ Forall (fun p : pixel => length p = c) l) img.

(** [line_code c fill bs l]: the bytes [bs] are a valid encoding of the pixels [l].
    - a byte n in 0..127 followed by one pixel: the pixel n+1 times;
    - a byte 257-k in 129..255 followed by k pixels: these k pixels;
    - if a fill pixel is given (URF): byte 128 fills the rest of the line with it. *)
Inductive line_code (c : nat) (fill : option pixel) : list byte -> line -> Prop :=
| lc_end : line_code c fill [] []
| lc_run k (p : pixel) bs l :
    1 <= k <= 128 -> length p = c ->
    line_code c fill bs l ->
    line_code c fill (bZ (Z.of_nat k - 1) :: p ++ bs) (repeat p k ++ l)
| lc_literal (ps : line) bs l :
    2 <= length ps <= 128 -> Forall (fun p => length p = c) ps ->
    line_code c fill bs l ->
    line_code c fill (bZ (257 - Z.of_nat (length ps)) :: concat ps ++ bs) (ps ++ l)
| lc_fill p k :
    fill = Some p -> 1 <= k ->
    line_code c fill [bZ 128] (repeat p k).

(** [page_code c w fill bs img]: [bs] is a valid page body for [img], whose lines have
    [w] pixels: a byte n in 0..255 followed by an encoded line stands for the line n+1
    times. *)
Inductive page_code (c w : nat) (fill : option pixel) : list byte -> image -> Prop :=
| pc_end : page_code c w fill [] []
| pc_line k bs (l : line) rest img :
    1 <= k <= 256 -> length l = w ->
    line_code c fill bs l ->
    page_code c w fill rest img ->
    page_code c w fill (bZ (Z.of_nat k - 1) :: bs ++ rest) (repeat l k ++ img).

(** pixel (x, y) of an image *)
Definition pixel_at (img : image) (x y : nat) : pixel := nth x (nth y img []) [].

(** [img'] is [img] mirrored left-right (if [h]) and top-bottom (if [v]). *)
Definition mirrored (hm vm : bool) (w h : nat) (img img' : image) : Prop :=
  forall x y, x < w -> y < h ->
    pixel_at img' x y = pixel_at img (if hm then w - 1 - x else x) (if vm then h - 1 - y else y).

(** 1-bit images: pixel x of a packed line is bit 7 - x mod 8 of byte x / 8. *)
Definition bit_at (packed : list byte) (x : nat) : bool :=
  Z.testbit (Zb (nth (x / 8) packed (bZ 0))) (7 - Z.of_nat (x mod 8)).
