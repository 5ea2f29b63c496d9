(** The example program: test/example/soil_evolution.cpp and test/example/main.cpp.

    A trajectory is computed first (CalcTrajectory), then poses along it at times chosen
    from the speed of the corners of the body, then Step is called with these poses. *)
From Coq Require Import ZArith List Bool.
From Verif Require Import Outcome Flt ModelTypes ModelGeometry.
Import ListNotations.
Open Scope Z_scope.
Open Scope flt_scope.

Section Example.
  Context {K : flt}.
  Notation sf := (sf K).
  Notation df := (df K).
  Notation vec := (vec sf).
  Notation quat := (quat sf).
  (** std::sin(double), std::cos(double), std::atan(float). *)
  Variables (sin cos : df -> df) (atan : sf -> sf).

  (** ** CalcTrajectory *)
  (** soil_evolution.cpp:372-384: coefficients of the parabola. *)
  Definition parabola (x_i z_i x_min z_min : sf) : sf * sf * sf :=
    if x_min ==! s0 then ((z_i -! z_min) /! (x_i *! x_i), s0, z_min)
    else
      let b := s_of_Z 2 *! x_min *! (z_min -! z_i) /! ((x_i -! x_min) *! (x_i -! x_min)) in
      let a := sopp b /! (s_of_Z 2 *! x_min) in
      (a, b, z_min +! b *! b /! (s_of_Z 4 *! a)).

  (** soil_evolution.cpp:366-370: X of the point [ii]. *)
  Definition trajectory_x (x_i x_min : sf) (nn : nat) (ii : nat) : sf :=
    let delta_x := nar (d2 *!! wid (x_min -! x_i) /!! d_of_Z (Z.of_nat nn - 1)) in
    x_i +! s_of_Z (Z.of_nat ii) *! delta_x.

  (** soil_evolution.cpp:361-402: position and three angles of each point. A negative
      number of points is not modelled. *)
  Definition calc_trajectory (x_i z_i x_min z_min origin_angle : sf) (nn : nat)
    : list (vec * vec) :=
    let '(a, b, c) := parabola x_i z_i x_min z_min in
    map (fun ii =>
      let x := trajectory_x x_i x_min nn ii in
      (mkVec x s0 (a *! x *! x +! b *! x +! c),
       mkVec s0 (sopp origin_angle +! atan (s_of_Z 2 *! a *! x +! b)) s0)) (seq 0 nn).

  (** ** SoilEvolution *)
  (** soil_evolution.cpp:58-91: the arguments x_i, z_i, x_min, z_min of CalcTrajectory. The
      random ones come from four draws of uniform_real_distribution(0, 1). *)
  Definition bucket_default : sf * sf * sf * sf :=
    (nar (d_of_Z (-2)), nar (d_of_Z 3 /!! d_of_Z 2), nar (d_of_Z 1 /!! d_of_Z 10),
     nar (d_of_Z 1 /!! d_of_Z 4)).
  Definition blade_default : sf * sf * sf * sf :=
    (nar (d_of_Z (-2)), nar (d_of_Z 1 /!! d_of_Z 10), nar (d_of_Z 1 /!! d_of_Z 10), nar d0).
  Definition bucket_random (u1 u2 u3 u4 : sf) : sf * sf * sf * sf :=
    (nar (d_of_Z (-3) +!! d_of_Z 2 *!! wid u1),
     nar (d_half +!! d_of_Z 3 /!! d_of_Z 2 *!! wid u2),
     nar (d_of_Z (-1) /!! d_of_Z 2 *!! wid u3),
     nar (d_of_Z (-1) /!! d_of_Z 4 +!! d_half *!! wid u4)).
  Definition blade_random (u1 u2 u3 u4 : sf) : sf * sf * sf * sf :=
    (nar (d_of_Z (-3) +!! d_of_Z 2 *!! wid u1),
     nar (d_of_Z 1 /!! d_of_Z 10 +!! d_of_Z 1 /!! d_of_Z 10 *!! wid u2),
     nar (d_of_Z (-1) /!! d_of_Z 2 *!! wid u3),
     nar (d_of_Z 1 /!! d_of_Z 10 +!! d_of_Z 1 /!! d_of_Z 10 *!! wid u4)).
  Definition trajectory_of (args : sf * sf * sf * sf) (origin_angle : sf) (nn : nat)
    : list (vec * vec) :=
    let '(x_i, z_i, x_min, z_min) := args in
    calc_trajectory x_i z_i x_min z_min origin_angle nn.

  (** v[k] *)
  Definition at_index {T} (l : list T) (k : Z) : outcome T :=
    if k <? 0 then UB OutOfRange
    else match nth_error l (Z.to_nat k) with Some v => Ok v | None => UB OutOfRange end.

  (** soil_evolution.cpp:106-150: corners of the body at a point of the trajectory. *)
  Definition example_corners (body : gbody K) (p : vec * vec) : corners K :=
    let o := angle_to_quat sin cos (snd p) in
    let j := vmap2 sadd (calc_rotation_quaternion o (j_init body)) (fst p) in
    let b := vmap2 sadd (calc_rotation_quaternion o (b_init body)) (fst p) in
    let t := vmap2 sadd (calc_rotation_quaternion o (t_init body)) (fst p) in
    let h := vmap (fun n => width body *! n /! s_of_Z 2) (calc_normal j b t) in
    mkCorners (K := K) (vmap2 sadd j h) (vmap2 ssub j h) (vmap2 sadd b h) (vmap2 ssub b h)
      (vmap2 sadd t h) (vmap2 ssub t h).

  (** u * a + v * b, coordinate by coordinate. *)
  Definition blend (a b : sf) (u v : vec) : vec :=
    vmap2 (fun x y => x *! a +! y *! b) u v.

  (** static_cast<int>(std::ceil(time / dt_int)) *)
  Definition time_index (dt_int time : sf) : outcome Z := s_int (sceil (time /! dt_int)).

  (** soil_evolution.cpp:197-220 and 225-248: the corners [k] and [k + 1] blended. *)
  Definition blend_corners (a b : sf) (cs : list (corners K)) (k : Z) : outcome (list vec) :=
    u <- at_index cs k ;;
    v <- at_index cs (k + 1) ;;
    Ok (map (fun f => blend a b (f u) (f v)) [@j_l K; @j_r K; @b_l K; @b_r K; @t_l K; @t_r K]).

  (** soil_evolution.cpp:251-274: std::sqrt(std::pow(x, 2) + ...) / dt_i, in double. *)
  Definition speed (dt_i : sf) (plus minus : vec) : sf :=
    let sq x y := wid (x -! y) *!! wid (x -! y) in
    nar (dsqrt (sq (vx plus) (vx minus) +!! sq (vy plus) (vy minus) +!! sq (vz plus) (vz minus))
         /!! wid dt_i).

  (** The literals 8.0, 0.2, 0.1, 1.25. *)
  Definition total_time : sf := s_of_Z 8.
  Definition dt_max : sf := nar (d_of_Z 2 /!! d_of_Z 10).
  Definition dt_start : sf := nar (d_of_Z 1 /!! d_of_Z 10).
  Definition d_5_4 : df := d_of_Z 5 /!! d_of_Z 4.

  Section Loop.
    Variable g : ggrid K.
    Variable traj : list (vec * vec).
    Variable cs : list (corners K).
    Variable dt_int : sf.

    (** soil_evolution.cpp:179-190: the pose at [time]. *)
    Definition pose_at (kk : Z) (a b : sf) : outcome (vec * quat) :=
      u <- at_index traj kk ;;
      v <- at_index traj (kk + 1) ;;
      Ok (blend a b (fst u) (fst v), angle_to_quat sin cos (blend a b (snd u) (snd v))).

    (** soil_evolution.cpp:192-287: the next time step (a_plus, b_plus, a_minus and
        b_minus are computed by the code and not used). *)
    Definition next_dt (time dt_i a b : sf) : outcome sf :=
      kp <- time_index dt_int (nar (wid time +!! d_half *!! wid dt_i)) ;;
      plus <- blend_corners a b cs kp ;;
      km <- time_index dt_int (nar (wid time -!! d_half *!! wid dt_i)) ;;
      minus <- blend_corners a b cs km ;;
      let vel := map (fun p => speed dt_i (fst p) (snd p)) (combine plus minus) in
      let top := nar (d_5_4 *!! wid (smax_list (hd s0 vel) (tl vel))) in
      Ok (if top ==! s0 then dt_max else smin (g_cell_xy g) (g_cell_z g) /! top).

    (** soil_evolution.cpp:171-296: poses and times of the loop. *)
    Fixpoint time_loop (fuel : nat) (time dt_i : sf)
      : outcome (list (vec * quat) * list sf) :=
      match fuel with
      | O => OutOfFuel
      | S fuel =>
          if time +! dt_i <! total_time then
            kk <- time_index dt_int time ;;
            let a := (s_of_Z (kk + 1) *! dt_int -! time) /! dt_int in
            let b := (time -! s_of_Z kk *! dt_int) /! dt_int in
            p <- pose_at kk a b ;;
            dt <- next_dt time dt_i a b ;;
            '(ps, ts) <- time_loop fuel (time +! (if dt_max <! dt then dt_max else dt)) dt ;;
            Ok (p :: ps, time :: ts)
          else Ok ([], [])
      end.
  End Loop.

  (** The pose of a point of the trajectory. *)
  Definition point_pose (p : vec * vec) : vec * quat :=
    (fst p, angle_to_quat sin cos (snd p)).

  (** soil_evolution.cpp:156-303: pos_vec with ori_vec, and time_vec. *)
  Definition plan (g : ggrid K) (body : gbody K) (traj : list (vec * vec)) (fuel : nat)
    : outcome (list (vec * quat) * list sf) :=
    let dt_int := total_time /! s_of_Z (Z.of_nat (length traj) - 1) in
    p0 <- at_index traj 0 ;;
    '(ps, ts) <- time_loop g traj (map (example_corners body) traj) dt_int fuel dt_start dt_start ;;
    pn <- at_index traj (Z.of_nat (length traj) - 1) ;;
    Ok (point_pose p0 :: ps ++ [point_pose pn], ts ++ [total_time]).

  (** soil_evolution.cpp:317-323: the poses given to Step, one per element of time_vec. *)
  Definition stepped (g : ggrid K) (body : gbody K) (traj : list (vec * vec)) (fuel : nat)
    : outcome (list (vec * quat)) :=
    '(ps, ts) <- plan g body traj fuel ;;
    Ok (firstn (length ts) ps).
End Example.
