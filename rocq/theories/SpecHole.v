(** Vocabulary of the walls without holes (C52): seen from above, in exact arithmetic. *)
From Coq Require Import Reals ZArith List.
From Verif Require Import Base Flt FltR State ModelTypes ModelBodyPos SpecGeo PoseProofs LineCells RasterProofs.
Import ListNotations.
Open Scope R_scope.

(** A strip in which the coordinate grows from 0 to 1, the sum of its slopes along both axes
    being [e] per cell: wider than a cell, or else narrower. *)
Definition room (tol m e : R) : Prop := e < 1 - 2 * tol \/ 1 < (1 - 2 * m) * e.

(** The triangle is wide enough, in the coordinate of gradient (a, b). *)
Definition wide (tol : R) (a b : R) : Prop := 2 * Rabs a < 1 - 3 * tol /\ 2 * Rabs b < 1 - 3 * tol.

(** The point of the plane at (x, y) is well inside of the column (i, j): [m] away from its sides. *)
Definition well_in (m : R) (i j : Z) (x y : R) : Prop :=
  Rabs (x - IZR i) <= / 2 - m /\ Rabs (y - IZR j) <= / 2 - m.

(** A vertex whose index fits an int and is not on the side of a cell. *)
Definition fair (g : rgrid) (p : rvec) : Prop := int_vec (ind g p) /\ LineCells.off_border (ind g p).

(** The point of coordinates (u, v) of the surface of sides [a b] and [a d]. *)
Definition surface_point (a b d : rvec) (u v : R) : rvec :=
  vadd a (vadd (vscale u (vsub b a)) (vscale v (vsub d a))).

(** Every column in which the surface lies has a cell in the wall. *)
Definition full_rectangle (g : rgrid) (m : R) (a b d : rvec) (w : list cell3) : Prop :=
  forall u v i j, 0 <= u <= 1 -> 0 <= v <= 1 ->
    let p := ind g (surface_point a b d u v) in
    well_in m i j (vx p) (vy p) -> exists k, In (i, j, k) w.
Definition full_triangle (g : rgrid) (m : R) (a b c : rvec) (w : list cell3) : Prop :=
  forall u v i j, 0 <= u -> 0 <= v -> u + v <= 1 ->
    let p := ind g (surface_point a b c u v) in
    well_in m i j (vx p) (vy p) -> exists k, In (i, j, k) w.

(** The sides [a b] and [a d] seen from above, in cells. *)
Definition side_x (g : rgrid) (a b : rvec) : R := (vx b - vx a) / g_cell_xy g.
Definition side_y (g : rgrid) (a b : rvec) : R := (vy b - vy a) / g_cell_xy g.
(** The area of the parallelogram they span. *)
Definition span (g : rgrid) (a b d : rvec) : R :=
  Rabs (side_x g a b * side_y g a d - side_y g a b * side_x g a d).

(** Seen edge on; or neither side as wide as one cell to the tolerance, and not larger than what
    the tolerance allows. *)
Definition rectangle_shape (g : rgrid) (tol m : R) (a b d : rvec) : Prop :=
  span g a b d = 0 \/
  (span g a b d <> 0 /\ 5 * (tol + m) * span g a b d < 1 /\
   room tol m ((Rabs (side_x g a d) + Rabs (side_y g a d)) / span g a b d) /\
   room tol m ((Rabs (side_x g a b) + Rabs (side_y g a b)) / span g a b d)).
(** Seen edge on; or so narrow that no cell fits in; or wide from each of its sides. *)
Definition triangle_shape (g : rgrid) (tol m : R) (a b c : rvec) : Prop :=
  span g a b c = 0 \/
  (span g a b c <> 0 /\ exists p q, In (p, q) [(a, b); (b, c); (c, a)] /\
     1 < (1 - 2 * m) * ((Rabs (side_x g p q) + Rabs (side_y g p q)) / span g a b c)) \/
  (span g a b c <> 0 /\ 5 * (tol + m) * span g a b c < 1 /\
   forall p q, In (p, q) [(a, b); (b, c); (c, a)] ->
     wide tol (side_y g p q / span g a b c) (side_x g p q / span g a b c)).
