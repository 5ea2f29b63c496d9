(** Properties of the example program (ModelExample.v): its trajectories, the times at
    which it calls Step, and its default run. Statements only; the proofs are in
    ExampleProofs.v, ExampleLoop.v, ExampleRun.v, ExampleFaults.v, ExampleTimes.v,
    ExampleRandom.v and ExampleBlade.v.

    [stepped sin cos g b traj fuel] are the poses given to Step when the body follows
    [traj]; [ex_g], [ex_b], [ex_prm] are the grid, bucket and parameters of
    test/example, and [ex_traj o] is its default trajectory with the origin angle [o]. *)
From Coq Require Import Reals ZArith List Bool Ratan Lra Lia SpecFloat.
From Verif Require Import Outcome Num Base Flt FltR FltB State Spec Spec2
  ModelTypes ModelGeometry ModelBodySoil ModelBodyPos ModelUtils ModelStep ModelRaster ModelWhole
  ModelExample SpecGeo PoseProofs TypesProofs InsideProofs GeoClaims CheckProofs WholeProofs WholeClaims
  ExampleProofs ExampleLoop ExampleRun ExampleFaults ExampleTimes ExampleRandom
  ExampleBlade.
Import ListNotations.
Open Scope R_scope.

(** ** C54 *)
(** Every point is on the parabola with its extremum in (x_min, z_min), and the second
    angle is the one of its tangent. *)
Theorem C54_parabola :
  forall x_i z_i x_min z_min o nn k, (2 <= nn)%nat -> (k < nn)%nat ->
  x_i <> x_min -> x_min = 0 \/ z_i <> z_min ->
  let x := x_i + INR k * (2 * (x_min - x_i) / INR (nn - 1)) in
  nth_error (calc_trajectory (K := FltR) atan x_i z_i x_min z_min o nn) k =
    Some (mkVec x 0 (z_min + (z_i - z_min) * ((x - x_min) / (x_i - x_min))²),
          mkVec 0 (- o + atan (2 * (z_i - z_min) * (x - x_min) / (x_i - x_min)²)) 0).
Proof. exact trajectory_nth. Qed.
Print Assumptions C54_parabola.
Example C54_parabola_example :
  (2 <= ex_nn)%nat /\ (90 < ex_nn)%nat /\ -2 <> / 10 /\ (/ 10 = 0 \/ 3 / 2 <> / 4).
Proof. unfold ex_nn. repeat split; [lia|lia|lra|right; lra]. Qed.

(** It has [nn] points, from (x_i, z_i) to its mirror image, at heights between those two. *)
Theorem C54_ends :
  forall x_i z_i x_min z_min o nn, (2 <= nn)%nat -> x_i <> x_min -> x_min = 0 \/ z_i <> z_min ->
  let traj := calc_trajectory (K := FltR) atan x_i z_i x_min z_min o nn in
  length traj = nn /\
  (exists a, nth_error traj 0 = Some (mkVec x_i 0 z_i, a)) /\
  (exists a, nth_error traj (nn - 1) = Some (mkVec (2 * x_min - x_i) 0 z_i, a)) /\
  forall p, In p traj -> exists u v, 0 <= u <= 1 /\ 0 <= v <= 1 /\
    fst p = mkVec (x_i + u * (2 * (x_min - x_i))) 0 (z_min + v * (z_i - z_min)).
Proof. exact trajectory_ends. Qed.
Print Assumptions C54_ends.
Example C54_ends_example : exists a,
  nth_error (calc_trajectory (K := FltR) atan (-2) (3 / 2) (/ 10) (/ 4) 0 ex_nn) (ex_nn - 1) =
    Some (mkVec (2 * / 10 - -2) 0 (3 / 2), a).
Proof.
  destruct (C54_ends (-2) (3 / 2) (/ 10) (/ 4) 0 ex_nn) as (_ & _ & H & _);
    [unfold ex_nn; lia|lra|right; lra|exact H].
Qed.

(** The heights are not numbers when the two heights are equal and x_min is not zero: here a
    random blade, whose four draws are 0, 0, 0.5 and 0. *)
Theorem C54_flat_refuted :
  exists u1 u2 u3 u4, forall atn o nn p,
  In p (trajectory_of (K := FltB) atn (blade_random (K := FltB) u1 u2 u3 u4) o nn) ->
  vz (fst p) = S754_nan.
Proof. exists zero_draw, zero_draw, half_draw, zero_draw. exact flat_nan. Qed.
Print Assumptions C54_flat_refuted.
Example C54_flat_example : forall atn o,
  length (trajectory_of (K := FltB) atn
    (blade_random (K := FltB) zero_draw zero_draw half_draw zero_draw) o 3) = 3%nat.
Proof. reflexivity. Qed.

(** The orientation of the blade is not constant: its first and last angles have opposite signs. *)
Theorem C54_blade_turns_refuted :
  exists p q,
  nth_error (trajectory_of (K := FltR) atan (blade_default (K := FltR)) 0 ex_nn) 0 = Some p /\
  nth_error (trajectory_of (K := FltR) atan (blade_default (K := FltR)) 0 ex_nn) (ex_nn - 1) = Some q /\
  vy (snd p) < 0 < vy (snd q).
Proof. exact blade_turns. Qed.
Print Assumptions C54_blade_turns_refuted.

(** The corners that give the speeds of the body (soil_evolution.cpp:106-150): joint, base and
    tip are turned by the angle around Y and moved to the point of the trajectory, half a
    width on each side. The right side is at the positive Y when [D] is positive, as for the
    blade of main.cpp, and at the negative Y for its bucket. *)
Theorem C54_corners :
  forall (b : gbody FltR) (p : rvec) t,
  vy (j_init b) = 0 -> vy (b_init b) = 0 -> vy (t_init b) = 0 ->
  let D := (vz (b_init b) - vz (j_init b)) * (vx (t_init b) - vx (j_init b)) -
    (vx (b_init b) - vx (j_init b)) * (vz (t_init b) - vz (j_init b)) in
  D <> 0 ->
  let e := width b / 2 * (D / Rabs D) in
  let at_ v dy := mkVec (cos t * vx v - sin t * vz v + vx p) (vy p + dy)
    (sin t * vx v + cos t * vz v + vz p) in
  example_corners (K := FltR) sin cos b (p, mkVec 0 t 0) = mkCorners (K := FltR)
    (at_ (j_init b) e) (at_ (j_init b) (- e)) (at_ (b_init b) e) (at_ (b_init b) (- e))
    (at_ (t_init b) e) (at_ (t_init b) (- e)).
Proof. exact planar_corners. Qed.
Print Assumptions C54_corners.
Example C54_corners_example :
  let D (b : gbody FltR) := (vz (b_init b) - vz (j_init b)) * (vx (t_init b) - vx (j_init b)) -
    (vx (b_init b) - vx (j_init b)) * (vz (t_init b) - vz (j_init b)) in
  0 < D ex_blade /\ D ex_b < 0 /\
  vy (j_init ex_blade) = 0 /\ vy (b_init ex_blade) = 0 /\ vy (t_init ex_blade) = 0 /\
  vy (j_init ex_b) = 0 /\ vy (b_init ex_b) = 0 /\ vy (t_init ex_b) = 0.
Proof.
  unfold ex_blade, ex_b, mission_b. cbn [j_init b_init t_init vx vy vz]. repeat split; lra.
Qed.

(** With four draws at zero the tip of the blade of main.cpp ends 60 cm out of the grid,
    whose half length is 4 m. *)
Theorem C54_random_blade_leaves_refuted :
  exists p,
  nth_error (trajectory_of (K := FltR) atan (blade_random (K := FltR) 0 0 0 0) 0 ex_nn) (ex_nn - 1) = Some p /\
  forall c, In c [t_r (example_corners (K := FltR) sin cos ex_blade p);
                  t_l (example_corners (K := FltR) sin cos ex_blade p)] -> vx c = 46 / 10.
Proof. exact blade_leaves. Qed.
Print Assumptions C54_random_blade_leaves_refuted.

(** With any draws the six corners of the bucket of main.cpp are 13 cm or more from the sides
    of the grid and 1.13 m or more from its top and bottom, at every point of the trajectory. *)
Theorem C54_random_bucket_stays :
  forall u1 u2 u3 u4 o nn,
  0 <= u1 <= 1 -> 0 <= u2 <= 1 -> 0 <= u3 <= 1 -> 0 <= u4 <= 1 -> (2 <= nn)%nat ->
  forall p f,
  In p (trajectory_of (K := FltR) atan (bucket_random (K := FltR) u1 u2 u3 u4) o nn) ->
  In f [@j_l FltR; @j_r FltR; @b_l FltR; @b_r FltR; @t_l FltR; @t_r FltR] ->
  let c := f (example_corners (K := FltR) sin cos ex_b p) in
  Rabs (vx c) <= 387 / 100 /\ Rabs (vy c) = / 4 /\ - (112 / 100) <= vz c <= 287 / 100.
Proof. exact random_stays. Qed.
Print Assumptions C54_random_bucket_stays.
Example C54_random_bucket_stays_example : exists a,
  In (mkVec (-3) 0 (/ 2), a) (trajectory_of (K := FltR) atan (bucket_random (K := FltR) 0 0 1 (/ 2)) 0 ex_nn).
Proof.
  destruct (C54_ends (-3) (/ 2) (- / 2) 0 0 ex_nn) as (_ & (a & H) & _);
    [unfold ex_nn; lia|lra|right; lra|]. exists a.
  rewrite random_args. cbn [trajectory_of].
  replace (-3 + 2 * 0) with (-3) by lra. replace (/ 2 + 3 / 2 * 0) with (/ 2) by lra.
  replace (- / 2 * 1) with (- / 2) by lra. replace (- / 4 + / 2 * / 2) with 0 by lra.
  exact (nth_error_In _ _ H).
Qed.

(** On the default trajectory the six corners of the blade of main.cpp are 12 cm or more from
    the sides of the grid. *)
Theorem C54_default_blade_stays :
  forall o nn, (2 <= nn)%nat ->
  forall p f,
  In p (trajectory_of (K := FltR) atan (blade_default (K := FltR)) o nn) ->
  In f [@j_l FltR; @j_r FltR; @b_l FltR; @b_r FltR; @t_l FltR; @t_r FltR] ->
  let c := f (example_corners (K := FltR) sin cos ex_blade p) in
  Rabs (vx c) <= 388 / 100 /\ Rabs (vy c) = 9 / 4 /\ Rabs (vz c) <= 178 / 100.
Proof. exact blade_stays. Qed.
Print Assumptions C54_default_blade_stays.
Example C54_default_blade_stays_example : exists a,
  In (mkVec (-2) 0 (/ 10), a) (trajectory_of (K := FltR) atan (blade_default (K := FltR)) 0 ex_nn).
Proof.
  destruct (C54_ends (-2) (/ 10) (/ 10) 0 0 ex_nn) as (_ & (a & H) & _);
    [unfold ex_nn; lia|lra|right; lra|]. exists a.
  rewrite blade_args. cbn [trajectory_of]. exact (nth_error_In _ _ H).
Qed.

(** ** C55 *)
(** In any arithmetic there is one pose more than there are times: the last point of the
    trajectory ("Adding final step") is never given to Step. *)
Theorem C55_last_pose_left_out :
  forall (K : flt) sn cs (g : ggrid K) b traj fuel ps ts,
  plan sn cs g b traj fuel = Ok (ps, ts) ->
  exists q pn, stepped sn cs g b traj fuel = Ok q /\ length q = length ts /\
    nth_error traj (length traj - 1) = Some pn /\ ps = q ++ [point_pose sn cs pn].
Proof. intros K. exact last_pose_left. Qed.
Print Assumptions C55_last_pose_left_out.

(** The rule of the time step: 0.2 s when the corners stand still, else the time to cross the
    smallest side of a cell at 1.25 times the speed of the fastest of the six corners. *)
Theorem C55_rule :
  forall (g : rgrid) cs dt_int time dt a b dt', 0 < dt ->
  next_dt (K := FltR) g cs dt_int time dt a b = Ok dt' ->
  exists kp km u v u' v' V,
    IZR kp - 1 < (time + dt / 2) / dt_int <= IZR kp /\ IZR km - 1 < (time - dt / 2) / dt_int <= IZR km /\
    (0 <= kp)%Z /\ (0 <= km)%Z /\
    nth_error cs (Z.to_nat kp) = Some u /\ nth_error cs (Z.to_nat kp + 1) = Some v /\
    nth_error cs (Z.to_nat km) = Some u' /\ nth_error cs (Z.to_nat km + 1) = Some v' /\
    (forall f, In f six -> vdist (vadd (vscale a (f u)) (vscale b (f v)))
                                 (vadd (vscale a (f u')) (vscale b (f v'))) / dt <= V) /\
    (exists f, In f six /\ vdist (vadd (vscale a (f u)) (vscale b (f v)))
                                 (vadd (vscale a (f u')) (vscale b (f v'))) / dt = V) /\
    (V = 0 -> dt' = / 5) /\ (V <> 0 -> dt' = Rmin (g_cell_xy g) (g_cell_z g) / (5 / 4 * V)).
Proof. exact next_dt_rule. Qed.
Print Assumptions C55_rule.
Example C55_rule_example : forall o, exists dt',
  next_dt (K := FltR) ex_g (map (example_corners (K := FltR) sin cos ex_b) (ex_traj o)) (8 / 9999) 1 (/ 10)
    1 0 = Ok dt'.
Proof. intros o. destruct (ex_next o 1 (/ 10) 1 0) as (dt' & E & _); [lra|lra|lra|lra|lra|lra|exists dt'; exact E]. Qed.

(** The default run: between two calls of Step but the first the body moves for 1.6 to 30.5 ms,
    the last time of the loop is less than 61 ms before the end, and each pose is the one of
    its time: X is linear, Z is within a micrometre of the parabola and the angle within
    0.001 of the one of the tangent. *)
Theorem C55_default_times :
  forall o fuel, (5001 <= Z.of_nat fuel)%Z ->
  exists p0 ps pn ts,
    plan (K := FltR) sin cos ex_g ex_b (ex_traj o) fuel = Ok (p0 :: ps ++ [pn], ts ++ [8]) /\
    stepped (K := FltR) sin cos ex_g ex_b (ex_traj o) fuel = Ok (p0 :: ps) /\
    hd 0 ts = / 10 /\ spaced (/ 625) (61 / 2000) ts /\
    Forall (fun t => / 10 <= t < 8) ts /\ 8 - 61 / 1000 <= last ts 0 /\
    on_track o 0 p0 /\ Forall2 (on_track o) ts ps /\ on_track o 8 pn.
Proof. exact ex_times. Qed.
Print Assumptions C55_default_times.

(** The default run: the times are found without any access outside of the arrays, and all
    the poses given to Step meet the hypotheses of the theorems about whole runs. *)
Theorem C55_default_mission :
  forall o fuel lines, (5001 <= Z.of_nat fuel)%Z -> (grid_fuel ex_g <= Z.of_nat lines)%Z ->
  exists ps, stepped (K := FltR) sin cos ex_g ex_b (ex_traj o) fuel = Ok ps /\
    mission Bucket ex_t ex_g ex_cz ex_prm ex_b ex_P ex_r lines ps.
Proof. exact ex_mission. Qed.
Print Assumptions C55_default_mission.
Example C55_default_example :
  rnew_grid 4 4 4 (/ 20) (/ 100) = Built ex_g /\
  rnew_param (17 / 20) 3 4 = Built ex_prm /\
  rnew_body [0; 0; 0] [0; 0; 0] [0; 0; - / 2] [7 / 10; 0; - / 2] (/ 2) = Built ex_b /\
  metres ex_t (p_tol ex_P) = / 100000.
Proof. exact ex_built. Qed.

(** So it ends, without undefined behaviour, with soil that passes Check, and loses soil only
    with a warning. *)
Theorem C55_default_run :
  forall o lines, (grid_fuel ex_g <= Z.of_nat lines)%Z ->
  exists ps, stepped (K := FltR) sin cos ex_g ex_b (ex_traj o) (Z.to_nat 5001) = Ok ps /\
  forall to_ticks noise rg l,
  let wg := wgrid ex_t ex_g ex_cz in
  let start := init (A := ZNum (wunits ex_t)) wg noise (new_sim wg rg l) in
  exists w' n,
    (forall fuel, (n <= fuel)%nat -> wrun Bucket ex_t to_ticks ex_g ex_cz ex_b ex_P lines fuel ps start = Ok w') /\
    check_soil (A := ZNum (wunits ex_t)) (p_tol ex_P) (fst w') = Ok (fst w', true) /\
    exists new, wlog (fst w') = wlog start ++ new /\
      (total_soil (fst w') <= total_soil start)%Z /\
      (total_soil (fst w') = total_soil start <-> ~ In WRemoved new).
Proof. exact ex_run. Qed.
Print Assumptions C55_default_run.

(** A slow body makes the loop read before the arrays: the same bucket moved by 6.4 cm
    in the 8 s, along 81 points. *)
Theorem C55_slow_body_refuted :
  exists x_i z_i x_min z_min nn, forall fuel, (2 <= fuel)%nat ->
  plan (K := FltR) sin cos ex_g ex_b (calc_trajectory (K := FltR) atan x_i z_i x_min z_min 0 nn) fuel =
    UB OutOfRange.
Proof. exists (- (32 / 1000)), (/ 10), 0, (/ 10), slow_nn. exact slow_reads_before. Qed.
Print Assumptions C55_slow_body_refuted.
