(** The walls of a body have no holes seen from above, and hold their own corners. Statements
    only; the proofs are in HolePlane.v, HoleProofs.v, HoleBody.v and HoleDemo.v. *)
From Coq Require Import Reals ZArith List Bool.
From Verif Require Import Outcome Base Flt FltR State ModelTypes ModelGeometry ModelBodyPos
  ModelRaster SpecGeo PoseProofs LineProofs LineCells RasterProofs InsideProofs GeoClaims
  SpecHole HoleProofs HoleBody HoleDemo.
Import ListNotations.
Open Scope R_scope.

(** ** C52 *)
(** A wall with four vertices, the opposite sides of which differ by [e] cells at most: every
    column in which the surface lies, [m] away from its sides, has a cell in the wall. *)
Theorem C52_rectangle :
  forall (g : rgrid) tol fuel m e a b c d w,
  0 < g_cell_xy g -> 0 <= tol -> 0 <= e -> 1 / 10000000000 + e < m -> m <= / 100 ->
  (forall p, In p [a; b; c; d] -> fair g p) ->
  Rabs (side_x g b c - side_x g a d) <= e -> Rabs (side_y g b c - side_y g a d) <= e ->
  rectangle_shape g tol m a b d ->
  calc_rectangle_pos (K := FltR) g tol fuel a b c d = Ok w -> full_rectangle g m a b d w.
Proof. exact rectangle_full. Qed.
Print Assumptions C52_rectangle.
Example C52_rectangle_example :
  (forall p, In p [sq_a; sq_b; sq_c; sq_d] -> fair demo_g p) /\
  Rabs (side_x demo_g sq_b sq_c - side_x demo_g sq_a sq_d) <= 0 /\
  Rabs (side_y demo_g sq_b sq_c - side_y demo_g sq_a sq_d) <= 0 /\
  rectangle_shape demo_g demo_tol hole_m sq_a sq_b sq_d /\
  exists w, calc_rectangle_pos (K := FltR) demo_g demo_tol 300 sq_a sq_b sq_c sq_d = Ok w.
Proof. exact rectangle_demo. Qed.

Theorem C52_triangle :
  forall (g : rgrid) tol fuel m a b c w,
  0 < g_cell_xy g -> 0 <= tol -> 1 / 10000000000 < m -> m <= / 100 ->
  (forall p, In p [a; b; c] -> fair g p) ->
  triangle_shape g tol m a b c ->
  calc_triangle_pos (K := FltR) g tol fuel a b c = Ok w -> full_triangle g m a b c w.
Proof. exact triangle_full. Qed.
Print Assumptions C52_triangle.
Example C52_triangle_example :
  (forall p, In p [sq_a; sq_b; sq_d] -> fair demo_g p) /\
  triangle_shape demo_g demo_tol hole_m sq_a sq_b sq_d /\ span demo_g sq_a sq_b sq_d = 100 /\
  exists w, calc_triangle_pos (K := FltR) demo_g demo_tol 300 sq_a sq_b sq_d = Ok w.
Proof. exact triangle_demo. Qed.

(** The bucket. Its corners are displaced before, by the tolerance, each one using the corners
    already displaced: the walls are parallelograms up to the square of the tolerance. *)
Theorem C52_bucket :
  forall (g : rgrid) tol fuel buf (b : rbody) pos ori r m ar walls,
  0 < g_cell_xy g -> 0 <= tol <= / 3 -> ori <> qzero -> radius_le b r ->
  1 / 10000000000 + 40 * (tol * tol) * r / g_cell_xy g < m -> m <= / 100 ->
  let c := nudge_corners (K := FltR) tol (rcorner_pos pos ori b) in
  (forall p, In p (corner_list c) -> fair g p) ->
  rectangle_shape g tol m (b_r c) (b_l c) (t_r c) -> rectangle_shape g tol m (b_r c) (b_l c) (j_r c) ->
  triangle_shape g tol m (j_r c) (b_r c) (t_r c) -> triangle_shape g tol m (j_l c) (b_l c) (t_l c) ->
  raster_bucket (K := FltR) g tol fuel buf b pos ori = Ok (ar, walls) ->
  exists base back right left, walls = [base; back; right; left] /\
    full_rectangle g m (b_r c) (b_l c) (t_r c) base /\ full_rectangle g m (b_r c) (b_l c) (j_r c) back /\
    full_triangle g m (j_r c) (b_r c) (t_r c) right /\ full_triangle g m (j_l c) (b_l c) (t_l c) left.
Proof. exact bucket_full. Qed.
Print Assumptions C52_bucket.
Example C52_bucket_example :
  0 < g_cell_xy demo_g /\ 0 <= demo_tol <= / 3 /\ hole_ori <> qzero /\ radius_le demo_b 1 /\
  1 / 10000000000 + 40 * (demo_tol * demo_tol) * 1 / g_cell_xy demo_g < hole_m <= / 100 /\
  let c := nudge_corners (K := FltR) demo_tol (rcorner_pos hole_pos hole_ori demo_b) in
  (forall p, In p (corner_list c) -> fair demo_g p) /\
  rectangle_shape demo_g demo_tol hole_m (b_r c) (b_l c) (t_r c) /\
  rectangle_shape demo_g demo_tol hole_m (b_r c) (b_l c) (j_r c) /\
  triangle_shape demo_g demo_tol hole_m (j_r c) (b_r c) (t_r c) /\
  triangle_shape demo_g demo_tol hole_m (j_l c) (b_l c) (t_l c) /\
  exists ar walls, raster_bucket (K := FltR) demo_g demo_tol 300 4 demo_b hole_pos hole_ori = Ok (ar, walls).
Proof. exact bucket_demo. Qed.

(** The blade. *)
Theorem C52_blade :
  forall (g : rgrid) tol fuel buf (bo : rbody) pos ori r m ar walls,
  0 < g_cell_xy g -> 0 <= tol <= / 3 -> ori <> qzero -> radius_le bo r ->
  1 / 10000000000 + 40 * (tol * tol) * (r + g_cell_xy g) / g_cell_xy g < m -> m <= / 100 ->
  let f := nudge_corners (K := FltR) tol (rcorner_pos pos ori bo) in
  let b := nudge_corners (K := FltR) tol (back_corners g (rcorner_pos pos ori bo)) in
  (forall p, In p (corner_list f ++ corner_list b) -> fair g p) ->
  (forall c, c = f \/ c = b ->
     rectangle_shape g tol m (b_r c) (b_l c) (j_r c) /\ rectangle_shape g tol m (t_r c) (t_l c) (j_r c)) ->
  raster_blade (K := FltR) g tol fuel buf bo pos ori = Ok (ar, walls) ->
  exists ankle_f ankle_b heel_f heel_b, walls = [ankle_f; ankle_b; heel_f; heel_b] /\
    full_rectangle g m (b_r f) (b_l f) (j_r f) ankle_f /\ full_rectangle g m (b_r b) (b_l b) (j_r b) ankle_b /\
    full_rectangle g m (t_r f) (t_l f) (j_r f) heel_f /\ full_rectangle g m (t_r b) (t_l b) (j_r b) heel_b.
Proof. exact blade_full. Qed.
Print Assumptions C52_blade.
Example C52_blade_example :
  1 / 10000000000 + 40 * (demo_tol * demo_tol) * (1 + g_cell_xy demo_g) / g_cell_xy demo_g < hole_m <= / 100 /\
  let f := nudge_corners (K := FltR) demo_tol (rcorner_pos hole_pos hole_ori demo_b) in
  let b := nudge_corners (K := FltR) demo_tol (back_corners demo_g (rcorner_pos hole_pos hole_ori demo_b)) in
  (forall p, In p (corner_list f ++ corner_list b) -> fair demo_g p) /\
  (forall c, c = f \/ c = b ->
     rectangle_shape demo_g demo_tol hole_m (b_r c) (b_l c) (j_r c) /\
     rectangle_shape demo_g demo_tol hole_m (t_r c) (t_l c) (j_r c)) /\
  exists ar walls, raster_blade (K := FltR) demo_g demo_tol 300 4 demo_b hole_pos hole_ori = Ok (ar, walls).
Proof. exact blade_demo. Qed.

(** ** C41: the corners *)
(** The cell of each displaced corner, at its own level, is in a wall. *)
Theorem C41_bucket_corners :
  forall (g : rgrid) tol fuel buf (b : rbody) pos ori ar walls,
  raster_bucket (K := FltR) g tol fuel buf b pos ori = Ok (ar, walls) ->
  forall p, In p (corner_list (nudge_corners (K := FltR) tol (rcorner_pos pos ori b))) ->
  exists w, In w walls /\ In (cell_of (ind g p)) w.
Proof. exact bucket_vertices. Qed.
Print Assumptions C41_bucket_corners.
Theorem C41_blade_corners :
  forall (g : rgrid) tol fuel buf (bo : rbody) pos ori ar walls,
  raster_blade (K := FltR) g tol fuel buf bo pos ori = Ok (ar, walls) ->
  forall p, In p (corner_list (nudge_corners (K := FltR) tol (rcorner_pos pos ori bo)) ++
     corner_list (nudge_corners (K := FltR) tol (back_corners g (rcorner_pos pos ori bo)))) ->
  exists w, In w walls /\ In (cell_of (ind g p)) w.
Proof. exact blade_corners. Qed.
Print Assumptions C41_blade_corners.
