(** The transformation with which a page is drawn: pdf2printable.cpp:168-186.  Cairo's own
    arithmetic on the matrix is taken as exact. *)
From Coq Require Import Reals.
From Verif Require Import Base.
Local Open Scope R_scope.

(** cairo_matrix_init(xx, yx, xy, yy, x0, y0) *)
Record matrix := mkMatrix { m_xx : R; m_yx : R; m_xy : R; m_yy : R; m_x0 : R; m_y0 : R }.
Definition apply_matrix (m : matrix) (p : R * R) : R * R :=
  (m_xx m * fst p + m_xy m * snd p + m_x0 m, m_yx m * fst p + m_yy m * snd p + m_y0 m).
(** pdf2printable.cpp:184: the page height after the swap *)
Definition turn_matrix (height : R) : matrix := mkMatrix 0 (-1) 1 0 0 height.
(** pdf2printable.cpp:178-186: a point of the page is turned, then scaled, then moved *)
Definition to_device (xScale yScale xOffset yOffset : R) (rotate : bool) (height : R) (p : R * R) : R * R :=
  let q := if rotate then apply_matrix (turn_matrix height) p else p in
  (xScale * fst q + xOffset, yScale * snd q + yOffset).
