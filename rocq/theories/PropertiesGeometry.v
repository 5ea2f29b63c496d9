(** Properties of the constructors, of the quaternions, of the pose of the body and of
    the rasterisation of its walls. Statements only; the proofs are in the other files.

    Float and double are the real numbers here ([FltR]), except in the statements over
    any arithmetic [K]. The statements about binary32 are in PropertiesFloat.v. *)
From Coq Require Import Reals ZArith List Bool Lra Lia.
From Verif Require Import Outcome Base Flt FltR FltRFacts State ModelTypes ModelGeometry
  ModelBodyPos ModelRaster SpecGeo GeoProofs PoseProofs TypesProofs LineProofs LineCells InnerProofs
  SurfaceProofs RasterProofs InsideProofs GeoClaims.
Import ListNotations.
Open Scope R_scope.

(** ** C28: Grid *)
(** Accepted exactly when [sizes_ok]; a number of cells that is not an int is undefined
    behaviour. *)
Theorem C28_accepts :
  forall sx sy sz cxy cz,
  (sizes_ok sx sy sz cxy cz -> fits sx cxy -> fits sy cxy -> fits sz cz ->
     is_built (rnew_grid sx sy sz cxy cz)) /\
  (sizes_ok sx sy sz cxy cz -> ~ (fits sx cxy /\ fits sy cxy /\ fits sz cz) ->
     exists r, rnew_grid sx sy sz cxy cz = BuildUB r) /\
  (~ sizes_ok sx sy sz cxy cz -> is_throw (rnew_grid sx sy sz cxy cz)).
Proof.
  intros sx sy sz cxy cz.
  exact (conj (fun H X Y Z => ex_intro _ _ (new_grid_ok sx sy sz cxy cz H X Y Z))
        (conj (new_grid_ub sx sy sz cxy cz) (new_grid_throws sx sy sz cxy cz))).
Qed.
Print Assumptions C28_accepts.

Theorem C28_vectors :
  forall sx sy sz cxy cz,
  sizes_ok sx sy sz cxy cz -> fits sx cxy -> fits sy cxy -> fits sz cz ->
  exists g, rnew_grid sx sy sz cxy cz = Built g /\
  (1 <= g_half_x g /\ 1 <= g_half_y g /\ 1 <= g_half_z g)%Z /\
  Z.of_nat (length (g_vect_x g)) = (2 * g_half_x g + 1)%Z /\
  Z.of_nat (length (g_vect_y g)) = (2 * g_half_y g + 1)%Z /\
  Z.of_nat (length (g_vect_z g)) = (2 * g_half_z g + 1)%Z /\
  (forall i, (0 <= i <= 2 * g_half_x g)%Z -> nth (Z.to_nat i) (g_vect_x g) 0 = - sx + IZR i * cxy) /\
  (forall j, (0 <= j <= 2 * g_half_y g)%Z -> nth (Z.to_nat j) (g_vect_y g) 0 = - sy + IZR j * cxy) /\
  (forall k, (0 <= k <= 2 * g_half_z g)%Z ->
     nth (Z.to_nat k) (g_vect_z g) 0 = - sz + cz + IZR k * cz).
Proof.
  intros sx sy sz cxy cz H X Y Z.
  exact (ex_intro _ _ (conj (new_grid_ok sx sy sz cxy cz H X Y Z) (grid_of_spec sx sy sz cxy cz H))).
Qed.
Print Assumptions C28_vectors.

Example C28_example : sizes_ok 4 4 4 (/ 10) (/ 10) /\ fits 4 (/ 10) /\
  ~ sizes_ok 4 4 4 (/ 10) (/ 5) /\
  rnew_grid 4 4 4 (/ 10) (/ 10) = Built demo_g /\ g_half_x demo_g = 40%Z.
Proof.
  assert (S : sizes_ok 4 4 4 (/ 10) (/ 10)) by (unfold sizes_ok; lra).
  assert (F : fits 4 (/ 10)).
  { unfold fits. replace (4 / / 10) with (IZR 40) by field. rewrite zround_IZR. lia. }
  split; [exact S|]. split; [exact F|]. split; [unfold sizes_ok; lra|].
  split; [exact (new_grid_ok _ _ _ _ _ S F F F)|apply demo_half].
Qed.

(** ** C30: Body *)
Theorem C30_accepts :
  forall o j b t w,
  (body_args_ok o j b t w -> is_built (rnew_body o j b t w)) /\
  (~ body_args_ok o j b t w -> is_throw (rnew_body o j b t w)).
Proof. exact new_body_iff. Qed.
Print Assumptions C30_accepts.

Theorem C30_relative :
  forall o j b t w,
  body_args_ok (list3 o) (list3 j) (list3 b) (list3 t) w ->
  rnew_body (list3 o) (list3 j) (list3 b) (list3 t) w =
    Built (@mkGBody FltR (vsub j o) (vsub b o) (vsub t o) w v0 qzero) /\
  forall d, rnew_body (list3 (vadd o d)) (list3 (vadd j d)) (list3 (vadd b d)) (list3 (vadd t d)) w =
            rnew_body (list3 o) (list3 j) (list3 b) (list3 t) w.
Proof.
  exact (fun o j b t w H => conj (new_body_ok o j b t w H)
                                 (fun d => new_body_translate o j b t w d H)).
Qed.
Print Assumptions C30_relative.

Example C30_example :
  body_args_ok (list3 v0) (list3 (mkVec 0 0 0)) (list3 (mkVec 0 0 (- / 2)))
    (list3 (mkVec (7 / 10) 0 (- / 2))) (/ 2) /\
  ~ body_args_ok (list3 v0) (list3 ex) (list3 ex) (list3 ey) (/ 2).
Proof.
  split.
  - unfold body_args_ok, vec3, list3; cbn [vx vy vz length].
    repeat split; try (intros E; injection E; lra); try (intros E; injection E as E1 E2 E3; lra); lra.
  - unfold body_args_ok. tauto.
Qed.

(** Three points on a line are accepted, although they have no normal (C35). *)
Theorem C30_line_accepted :
  exists o j b t w, is_built (rnew_body (list3 o) (list3 j) (list3 b) (list3 t) w) /\
    ~ triangle (vsub j o) (vsub b o) (vsub t o).
Proof. exact body_on_a_line. Qed.
Print Assumptions C30_line_accepted.

(** ** C31: SimParam *)
Theorem C31_accepts :
  forall angle iterations buffer,
  (param_ok angle iterations buffer ->
     rnew_param angle iterations buffer = Built (@mkGParam FltR angle iterations buffer)) /\
  (~ param_ok angle iterations buffer -> is_throw (rnew_param angle iterations buffer)).
Proof.
  exact (fun a i b => conj (new_param_ok a i b) (new_param_throws a i b)).
Qed.
Print Assumptions C31_accepts.

(** The allowed height difference. The angle PI / 2 itself, accepted by the constructor,
    has no tangent; no binary32 number equals PI / 2. *)
Theorem C31_height_difference :
  forall (g : rgrid) (p : gparam FltR),
  0 < g_cell_xy g -> 0 < g_cell_z g -> 0 <= repose_angle p < PI / 2 ->
  exists n, (0 <= n)%Z /\ rdh_max g p = IZR n * g_cell_z g /\
    Rabs (rdh_max g p - g_cell_xy g * tan (repose_angle p)) <= g_cell_z g / 2.
Proof. exact dh_max_nonneg. Qed.
Print Assumptions C31_height_difference.

Example C31_example : param_ok (PI / 4) 3 4 /\ ~ param_ok (PI / 4) 3 1 /\
  0 < g_cell_xy demo_g /\ 0 < g_cell_z demo_g /\
  0 <= repose_angle (@mkGParam FltR (PI / 4) 3 4) < PI / 2.
Proof.
  pose proof PI_RGT_0. unfold param_ok. cbn. repeat split; try lra; lia.
Qed.

(** ** C33: rotations *)
Theorem C33_rigid :
  forall q, q <> qzero ->
  (forall v, vlen (rot q v) = vlen v) /\
  (forall u v, vdist (rot q u) (rot q v) = vdist u v) /\
  (forall u v, dot (rot q u) (rot q v) = dot u v) /\
  (forall u v, cross (rot q u) (rot q v) = rot q (cross u v)) /\
  (forall a b u v, rot q (vadd (vscale a u) (vscale b v)) = vadd (vscale a (rot q u)) (vscale b (rot q v))).
Proof.
  intros q H.
  exact (conj (fun v => rot_len q v H) (conj (fun u v => rot_dist q u v H)
        (conj (fun u v => rot_dot q u v H) (conj (fun u v => rot_cross q u v H)
              (rot_linear q))))).
Qed.
Print Assumptions C33_rigid.

Theorem C33_scale :
  forall q k v, q <> qzero -> k <> 0 -> rot (qscale k q) v = rot q v.
Proof. exact rot_scale. Qed.
Print Assumptions C33_scale.

(** [MultiplyQuaternion] is Hamilton's product; the rotation by the product applies
    the left factor first. *)
Theorem C33_product :
  forall p q v, rot q (rot p v) = rot (multiply_quaternion (K := FltR) p q) v /\
    multiply_quaternion (K := FltR) p q = qmul p q.
Proof.
  intros p q v. split; [rewrite mul_is_qmul; apply rot_compose|apply mul_is_qmul].
Qed.
Print Assumptions C33_product.

(** The convention of the code: the quaternion (cos t/2, sin t/2 n) turns by -t around n. *)
Theorem C33_angle :
  forall n t v, dot n n = 1 ->
  rot (mkQuat (cos (t / 2)) (sin (t / 2) * vx n) (sin (t / 2) * vy n) (sin (t / 2) * vz n)) v
  = rotation n (- t) v.
Proof. exact rot_axis. Qed.
Print Assumptions C33_angle.

Example C33_example : demo_ori <> qzero /\ dot ez ez = 1.
Proof. split; [exact demo_ori_nz|apply unit_axes]. Qed.

(** ** C34: AngleToQuat *)
Theorem C34_unit : forall a, qlen2 (a2q a) = 1 /\ 0 <= qw (a2q a).
Proof. exact a2q_unit. Qed.
Print Assumptions C34_unit.
Theorem C34_rotation :
  forall a v, rot (a2q a) v = rotation ex (- vz a) (rotation ey (- vy a) (rotation ez (- vx a) v)).
Proof. exact a2q_rotation. Qed.
Print Assumptions C34_rotation.
Example C34_example : a2q v0 = mkQuat 1 0 0 0.
Proof. exact a2q_zero. Qed.

(** ** C35: CalcNormal *)
Theorem C35_unit : forall a b c, triangle a b c ->
  dot (normal a b c) (normal a b c) = 1 /\
  dot (normal a b c) (vsub b a) = 0 /\ dot (normal a b c) (vsub c a) = 0 /\
  exists k, 0 < k /\ cross (vsub b a) (vsub c a) = vscale k (normal a b c).
Proof.
  exact (fun a b c H => conj (normal_unit a b c H) (conj (proj1 (normal_orth a b c))
        (conj (proj2 (normal_orth a b c)) (normal_right a b c H)))).
Qed.
Print Assumptions C35_unit.
Example C35_example : triangle (j_init demo_b) (b_init demo_b) (t_init demo_b) /\
  normal (j_init demo_b) (b_init demo_b) (t_init demo_b) = mkVec 0 (-1) 0.
Proof. split; [exact demo_triangle|exact demo_normal]. Qed.

(** ** C36: body frame *)
Theorem C36_round_trip :
  forall i j z (g : rgrid) (b : rbody), ori_ b <> qzero ->
  rplace (pos_ b) (ori_ b) (rframe i j z g b) =
  mkVec (at_ (K := FltR) (g_vect_x g) i) (at_ (K := FltR) (g_vect_y g) j) z.
Proof. exact frame_place. Qed.
Print Assumptions C36_round_trip.

(** The other way round: a position is recovered from its placement. *)
Theorem C36_injective :
  forall pos ori u v, ori <> qzero -> rplace pos ori u = rplace pos ori v -> u = v.
Proof. exact place_inj. Qed.
Print Assumptions C36_injective.

(** body_soil.cpp:109-113: the cell of a centre is the cell itself, unless the size of
    the grid is an odd number of half cells. *)
Theorem C36_index :
  forall sx sy sz cxy cz, sizes_ok sx sy sz cxy cz -> fits sx cxy -> fits sy cxy ->
  let g := grid_of sx sy sz cxy cz in
  ~ half_integer (sx / cxy) -> ~ half_integer (sy / cxy) ->
  forall i j, (0 <= i <= 2 * g_half_x g)%Z -> (0 <= j <= 2 * g_half_y g)%Z ->
  cell_index (K := FltR) (g_half_x g) (g_cell_xy g) (at_ (K := FltR) (g_vect_x g) i) = Ok i /\
  cell_index (K := FltR) (g_half_y g) (g_cell_xy g) (at_ (K := FltR) (g_vect_y g) j) = Ok j.
Proof. exact index_centre. Qed.
Print Assumptions C36_index.

Theorem C36_index_refuted :
  exists g i, rnew_grid (5 / 2) (5 / 2) 1 1 1 = Built g /\ (0 <= i <= 2 * g_half_x g)%Z /\
  cell_index (K := FltR) (g_half_x g) (g_cell_xy g) (at_ (K := FltR) (g_vect_x g) i) = Ok (i + 1)%Z.
Proof. exact index_centre_tie. Qed.
Print Assumptions C36_index_refuted.

Example C36_example : ori_ demo_b <> qzero /\ ~ half_integer (4 / / 10).
Proof.
  split.
  - intros E. apply (f_equal qw) in E. cbn in E. lra.
  - apply (not_half _ 40). replace (4 / / 10) with 40 by field. lra.
Qed.

(** ** C37: corners *)
Theorem C37_width :
  forall pos ori (b : rbody), ori <> qzero -> triangle (j_init b) (b_init b) (t_init b) ->
  let c := rcorner_pos pos ori b in
  let n := normal (j_r c) (b_r c) (t_r c) in
  dot n n = 1 /\
  vsub (j_r c) (j_l c) = vscale (width b) n /\
  vsub (b_r c) (b_l c) = vscale (width b) n /\
  vsub (t_r c) (t_l c) = vscale (width b) n.
Proof. exact corners_width. Qed.
Print Assumptions C37_width.
Theorem C37_rigid :
  forall pos ori pos' ori' (b : rbody) m n d, ori <> qzero -> ori' <> qzero ->
  (m < 6)%nat -> (n < 6)%nat ->
  let c := corner_list (rcorner_pos pos ori b) in
  let c' := corner_list (rcorner_pos pos' ori' b) in
  vdist (nth m c d) (nth n c d) = vdist (nth m c' d) (nth n c' d).
Proof. exact corners_rigid. Qed.
Print Assumptions C37_rigid.
Example C37_example : demo_ori <> qzero /\ triangle (j_init demo_b) (b_init demo_b) (t_init demo_b) /\
  width demo_b = / 2.
Proof. split; [exact demo_ori_nz|split; [exact demo_triangle|reflexivity]]. Qed.

(** ** C38: movement *)
(** The binary32 part, the first Step, is in PropertiesFloat.v. *)
Theorem C38_threshold :
  forall pos ori (g : rgrid) (b : rbody),
  let n := rcorner_pos pos ori b in
  let f := rcorner_pos (pos_ b) (ori_ b) b in
  let m := Rmin (g_cell_xy g) (g_cell_z g) in
  0 < m ->
  (fst (rmovement pos ori g b) = false <->
     forall x y, In (x, y) (corner_pairs f n) -> vdist x y < / 2 * m) /\
  (snd (rmovement pos ori g b) = true <->
     exists x y, In (x, y) (corner_pairs f n) /\ 2 * m < vdist x y) /\
  (fst (rmovement pos ori g b) = false -> snd (rmovement pos ori g b) = false).
Proof. exact movement_spec. Qed.
Print Assumptions C38_threshold.
Example C38_example : 0 < Rmin (g_cell_xy demo_g) (g_cell_z demo_g) /\
  fst (rmovement (pos_ demo_b) (ori_ demo_b) demo_g demo_b) = false.
Proof. exact demo_still. Qed.

(** ** C39: lines *)
(** CalcLinePos works on indices: [rline] takes the indices of the two points. *)
Theorem C39_connected :
  forall fuel p q, int_vec p -> int_vec q -> clear_line p q ->
  (cell_dist (cell_of p) (cell_of q) <= Z.of_nat fuel)%Z ->
  exists l, rline fuel p q = Ok l /\
    hd_error l = Some (cell_of p) /\ (forall d, last l d = cell_of q) /\
    Z.of_nat (length l) = (cell_dist (cell_of p) (cell_of q) + 1)%Z /\
    chain next_cell l /\
    (forall c, In c l -> exists s, 0 <= s <= 1 /\ cell_holds c (point_at p q s)) /\
    (forall s, 0 <= s <= 1 -> exists c, In c l /\ cell_holds c (point_at p q s)).
Proof. exact line_exact. Qed.
Print Assumptions C39_connected.

(** Any two points, on a border or not: the loop stops, and every cell is less than one
    cell away from the box of the two points. *)
Theorem C39_stops :
  forall lo hi p q, box lo hi p -> box lo hi q -> int_vec lo -> int_vec hi ->
  exists n, forall fuel, (n <= fuel)%nat ->
  exists l, rline fuel p q = Ok l /\ l <> [] /\ forall c, In c l -> box_near lo hi c.
Proof. exact line_stops. Qed.
Print Assumptions C39_stops.

(** Without [clear_line] the claim fails: two equal coordinates less than 1e-10 above a
    border (the displacement 0 is replaced by 1e-10, body_pos.cpp:784-789) ... *)
Theorem C39_connected_refuted :
  exists p q, off_border p /\ off_border q /\
  forall fuel, (1 <= fuel)%nat -> exists l, rline fuel p q = Ok l /\
    forall d, last l d <> cell_of q.
Proof. exact near_border_refuted. Qed.
Print Assumptions C39_connected_refuted.
(** ... and a first point on a border. *)
Theorem C39_border_refuted :
  exists p q, forall fuel, (1 <= fuel)%nat -> exists l, rline fuel p q = Ok l /\
    forall d, last l d <> cell_of q.
Proof. exact on_border_refuted. Qed.
Print Assumptions C39_border_refuted.

Example C39_example : clear_line demo_p demo_q /\ int_vec demo_p /\ int_vec demo_q /\
  cell_dist (cell_of demo_p) (cell_of demo_q) = 10%Z.
Proof. exact demo_line. Qed.

(** ** C40: surfaces *)
(** The coefficients of the corner of a cell, for a surface that is not vertical. *)
Theorem C40_coefficients :
  forall ab ad a mx my i j c1 c2, vx ab * vy ad - vy ab * vx ad <> 0 ->
  (rcoeffs ab ad a mx my i j = (c1, c2) <->
   vx a + c1 * vx ab + c2 * vx ad = IZR mx + / 2 + IZR i /\
   vy a + c1 * vy ab + c2 * vy ad = IZR my + / 2 + IZR j).
Proof. exact coeffs_solve. Qed.
Print Assumptions C40_coefficients.

Theorem C40_inside :
  forall tol c1 c2,
  (in_rectangle (K := FltR) tol (c1, c2) = true <-> tol < c1 < 1 - tol /\ tol < c2 < 1 - tol) /\
  (in_triangle (K := FltR) tol (c1, c2) = true <-> tol < c1 /\ tol < c2 /\ c1 + c2 < 1 - tol).
Proof. exact (fun tol c1 c2 => conj (in_rectangle_iff tol c1 c2) (in_triangle_iff tol c1 c2)). Qed.
Print Assumptions C40_inside.

(** The arrays hold the coefficients and the marks, and the count is four times the
    number of marks: any arithmetic, any test. *)
Theorem C40_arrays :
  forall (K : flt) (inside : sf K * sf K -> bool) ab ad a min_x max_x min_y max_y,
  let '(cs, ins, n) := decompose inside ab ad a min_x min_y (max_x - min_x) (max_y - min_y) in
  (forall i j, (0 <= i < max_x - min_x)%Z -> (0 <= j < max_y - min_y)%Z ->
     entry (s0, s0) cs i j = corner_coeffs ab ad a min_x min_y i j /\
     entry false ins i j = inside (corner_coeffs ab ad a min_x min_y i j)) /\
  n = (4 * Z.of_nat (length (filter (fun c => entry false ins (fst c) (snd c))
        (list_prod (zrange 0 (max_x - min_x)) (zrange 0 (max_y - min_y))))))%Z.
Proof.
  exact (fun K inside ab ad a x x' y y' =>
    conj (@decompose_entry K inside ab ad a x x' y y') (@decompose_total K inside ab ad a x x' y y')).
Qed.
Print Assumptions C40_arrays.

(** The list of cells is filled exactly: no access out of bounds, as many cells as
    announced, and they are the four cells around every marked corner. *)
Theorem C40_filled :
  forall (K : flt) (inside : sf K * sf K -> bool) ab ad a min_x max_x min_y max_y,
  let '(cs, ins, n) := decompose inside ab ad a min_x min_y (max_x - min_x) (max_y - min_y) in
  let r := fill_inner cs ins a ab ad min_x max_x min_y max_y n in
  (forall u, r = UB u -> u = BadCast) /\
  (forall l, r = Ok l ->
    Z.of_nat (length l) = n /\
    forall x, In x l <-> exists i j k,
      In (i, j) (filter (fun c => entry false ins (fst c) (snd c))
        (list_prod (zrange 0 (max_x - min_x)) (zrange 0 (max_y - min_y)))) /\
      s_int (sceil (vz a +! fst (entry (s0, s0) cs i j) *! vz ab
                         +! snd (entry (s0, s0) cs i j) *! vz ad)%flt) = Ok k /\
      In x [(min_x + i, min_y + j, k); (min_x + i + 1, min_y + j, k);
            (min_x + i, min_y + j + 1, k); (min_x + i + 1, min_y + j + 1, k)]%Z).
Proof.
  exact (fun K inside ab ad a x x' y y' =>
    conj (@fill_ub K inside ab ad a x x' y y') (@fill_filled K inside ab ad a x x' y y')).
Qed.
Print Assumptions C40_filled.

(** A vertical surface has no inner cell: over the reals, with x / 0 = 0. *)
Theorem C40_vertical :
  forall ab ad a mx my i j tol, 0 <= tol -> vx ab * vy ad - vy ab * vx ad = 0 ->
  in_rectangle (K := FltR) tol (rcoeffs ab ad a mx my i j) = false /\
  in_triangle (K := FltR) tol (rcoeffs ab ad a mx my i j) = false.
Proof. exact vertical_unmarked. Qed.
Print Assumptions C40_vertical.

Example C40_example :
  vx (mkVec 5 0 0) * vy (mkVec 0 4 1) - vy (mkVec 5 0 0) * vx (mkVec 0 4 1) <> 0 /\
  rcoeffs (mkVec 5 0 0) (mkVec 0 4 1) (mkVec 10 20 3) 10 20 1 1 = (3 / 10, 3 / 8) /\
  in_rectangle (K := FltR) demo_tol (3 / 10, 3 / 8) = true.
Proof. exact demo_coeffs. Qed.

(** ** C41: walls *)
(** One wall: in the bounding box of its four vertices, extended by one cell. *)
Theorem C41_wall :
  forall (g : rgrid) tol fuel a b c d, grid_fits g -> 0 <= tol ->
  (forall p, In p [a; b; c; d] -> in_cells g (ind g p)) ->
  1 <= vz (ind g b) + vz (ind g d) - vz (ind g a) <= 2 * gz g - 2 ->
  (grid_fuel g <= Z.of_nat fuel)%Z ->
  exists w, calc_rectangle_pos (K := FltR) g tol fuel a b c d = Ok w /\ w <> [] /\
    forall i j k, In (i, j, k) w -> hull g [a; b; c; d] i j /\ (0 <= k <= 2 * g_half_z g)%Z.
Proof. exact rectangle_hull. Qed.
Print Assumptions C41_wall.

(** The bucket: the rasterisation succeeds, with four walls, none empty; every cell is
    in the bounding box of the vertices extended by one cell, in body_area_, at a legal
    level, and no further from the position of the body than its radius plus one cell; the
    cells within cell_buffer - 2 of it are in body_area_ too. *)
Theorem C41_bucket :
  forall (g : rgrid) tol fuel buf (b : rbody) pos ori r rho,
  grid_fits g -> 0 <= tol <= / 3 -> (2 <= buf)%Z -> (grid_fuel g <= Z.of_nat fuel)%Z ->
  ori <> qzero -> radius_le b r -> (1 + 18 * tol) * r <= rho -> ball_inside g rho pos ->
  good_raster g buf rho pos (corner_list (nudge_corners (K := FltR) tol (rcorner_pos pos ori b))) 4
    (raster_bucket (K := FltR) g tol fuel buf b pos ori).
Proof. exact bucket_inside. Qed.
Print Assumptions C41_bucket.

Theorem C41_blade :
  forall (g : rgrid) tol fuel buf (b : rbody) pos ori r rho,
  grid_fits g -> 0 <= tol <= / 3 -> (2 <= buf)%Z -> (grid_fuel g <= Z.of_nat fuel)%Z ->
  ori <> qzero -> radius_le b r -> (1 + 18 * tol) * (r + g_cell_xy g) <= rho ->
  ball_inside g rho pos ->
  good_raster g buf rho pos
    (corner_list (nudge_corners (K := FltR) tol (rcorner_pos pos ori b)) ++
     corner_list (nudge_corners (K := FltR) tol (back_corners g (rcorner_pos pos ori b)))) 4
    (raster_blade (K := FltR) g tol fuel buf b pos ori).
Proof. exact blade_inside. Qed.
Print Assumptions C41_blade.

Example C41_example :
  grid_fits demo_g /\ 0 <= demo_tol <= / 3 /\ demo_ori <> qzero /\ radius_le demo_b 1 /\
  (1 + 18 * demo_tol) * (1 + g_cell_xy demo_g) <= 3 / 2 /\ ball_inside demo_g (3 / 2) demo_pos /\
  grid_fuel demo_g = 243%Z.
Proof.
  split; [exact demo_fits|]. split; [unfold demo_tol; lra|]. split; [exact demo_ori_nz|].
  split; [exact demo_radius|]. split; [destruct demo_cells as [-> _]; unfold demo_tol; lra|].
  split; [exact demo_inside|]. unfold grid_fuel. destruct demo_half as (-> & -> & ->). reflexivity.
Qed.
