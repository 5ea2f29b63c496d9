(** Quaternions and placement of the body: utils.cpp:20-234, and the placement of
    soil carried by the body: body_soil.cpp:77-113.

    Vectors of floats are triples and quadruples: the size of the vectors given by
    the user is not modelled (a shorter vector is undefined behaviour). *)
From Coq Require Import ZArith List Bool.
From Verif Require Import Outcome Flt ModelTypes.
Import ListNotations.
Open Scope Z_scope.
Open Scope flt_scope.

Section Geometry.
  Context {K : flt}.
  Notation sf := (sf K).
  Notation df := (df K).
  Notation vec := (vec sf).
  Notation quat := (quat sf).

  (** utils.cpp:221-234 MultiplyQuaternion *)
  Definition multiply_quaternion (a b : quat) : quat :=
    mkQuat
      (qw a *! qw b -! qx a *! qx b -! qy a *! qy b -! qz a *! qz b)
      (qw a *! qx b +! qx a *! qw b +! qy a *! qz b -! qz a *! qy b)
      (qw a *! qy b -! qx a *! qz b +! qy a *! qw b +! qz a *! qx b)
      (qw a *! qz b +! qx a *! qy b -! qy a *! qx b +! qz a *! qw b).

  (** utils.cpp:167-184 CalcRotationQuaternion *)
  Definition calc_rotation_quaternion (ori : quat) (p : vec) : vec :=
    let n := qw ori *! qw ori +! qx ori *! qx ori +! qy ori *! qy ori +! qz ori *! qz ori in
    let conj := mkQuat (qw ori /! n) (sopp (qx ori) /! n) (sopp (qy ori) /! n)
                       (sopp (qz ori) /! n) in
    let temp := mkQuat s0 (vx p) (vy p) (vz p) in
    let q := multiply_quaternion (multiply_quaternion conj temp) ori in
    mkVec (qx q) (qy q) (qz q).

  (** utils.cpp:191-217 AngleToQuat; [sin] and [cos] are std::sin(double) and
      std::cos(double). *)
  Definition angle_to_quat (sin cos : df -> df) (ori : vec) : quat :=
    let sn x := nar (sin (wid x /!! d2)) in
    let cs x := nar (cos (wid x /!! d2)) in
    let sin_0 := sn (vx ori) in
    let sin_1 := sn (vy ori) in
    let sin_2 := sn (vz ori) in
    let cos_0 := cs (vx ori) in
    let cos_1 := cs (vy ori) in
    let cos_2 := cs (vz ori) in
    let q_0 := cos_0 *! cos_1 *! cos_2 +! sin_0 *! sin_1 *! sin_2 in
    if s0 <! q_0 then
      mkQuat q_0
        (cos_0 *! cos_1 *! sin_2 -! sin_0 *! sin_1 *! cos_2)
        (cos_0 *! sin_1 *! cos_2 +! sin_0 *! cos_1 *! sin_2)
        (sin_0 *! cos_1 *! cos_2 -! cos_0 *! sin_1 *! sin_2)
    else
      mkQuat (sopp q_0)
        (sopp cos_0 *! cos_1 *! sin_2 +! sin_0 *! sin_1 *! cos_2)
        (sopp cos_0 *! sin_1 *! cos_2 -! sin_0 *! cos_1 *! sin_2)
        (sopp sin_0 *! cos_1 *! cos_2 +! cos_0 *! sin_1 *! sin_2).

  (** utils.cpp:123-143 CalcNormal *)
  Definition calc_normal (a b c : vec) : vec :=
    let c0 := (vy b -! vy a) *! (vz c -! vz a) -! (vz b -! vz a) *! (vy c -! vy a) in
    let c1 := (vz b -! vz a) *! (vx c -! vx a) -! (vx b -! vx a) *! (vz c -! vz a) in
    let c2 := (vx b -! vx a) *! (vy c -! vy a) -! (vy b -! vy a) *! (vx c -! vx a) in
    let n := ssqrt (c0 *! c0 +! c1 *! c1 +! c2 *! c2) in
    mkVec (c0 /! n) (c1 /! n) (c2 /! n).

  (** The six corners of a body. *)
  Record corners : Type := mkCorners {
    j_r : vec; j_l : vec; b_r : vec; b_l : vec; t_r : vec; t_l : vec
  }.
  Definition corner_list (c : corners) : list vec :=
    [j_r c; j_l c; b_r c; b_l c; t_r c; t_l c].

  (** utils.cpp:50-55: x = p + 0.5 * width * n and x = p - 0.5 * width * n *)
  Definition side_plus (w p n : sf) : sf :=
    nar (wid p +!! d_half *!! wid w *!! wid n).
  Definition side_minus (w p n : sf) : sf :=
    nar (wid p -!! d_half *!! wid w *!! wid n).

  (** utils.cpp:20-58 CalcBodyCornerPos *)
  Definition calc_body_corner_pos (pos : vec) (ori : quat) (body : gbody K) : corners :=
    let j := calc_rotation_quaternion ori (j_init body) in
    let b := calc_rotation_quaternion ori (b_init body) in
    let t := calc_rotation_quaternion ori (t_init body) in
    let n := calc_normal j b t in
    let j := vmap2 sadd j pos in
    let b := vmap2 sadd b pos in
    let t := vmap2 sadd t pos in
    let w := width body in
    mkCorners (vmap2 (side_plus w) j n) (vmap2 (side_minus w) j n)
              (vmap2 (side_plus w) b n) (vmap2 (side_minus w) b n)
              (vmap2 (side_plus w) t n) (vmap2 (side_minus w) t n).

  (** utils.cpp:80-103: distance between a former and a new corner. *)
  Definition corner_dist (f n : vec) : sf :=
    ssqrt ((vx f -! vx n) *! (vx f -! vx n) +! (vy f -! vy n) *! (vy f -! vy n) +!
           (vz f -! vz n) *! (vz f -! vz n)).

  Definition max_dist (f n : corners) : sf :=
    smax_list (corner_dist (j_r f) (j_r n))
      [ corner_dist (j_l f) (j_l n);
        corner_dist (b_r f) (b_r n); corner_dist (b_l f) (b_l n);
        corner_dist (t_r f) (t_r n); corner_dist (t_l f) (t_l n) ].

  (** utils.cpp:68-121 CheckBodyMovement: the result, and whether the warning is
      issued. *)
  Definition check_body_movement (pos : vec) (ori : quat) (g : ggrid K) (body : gbody K)
    : bool * bool :=
    let n := calc_body_corner_pos pos ori body in
    let f := calc_body_corner_pos (pos_ body) (ori_ body) body in
    let d := max_dist f n in
    let m := smin (g_cell_xy g) (g_cell_z g) in
    if wid d <!! d_half *!! wid m then (false, false)
    else if s_of_Z 2 *! m <! d then (true, true)
    else (true, false).

  (** v[i] for an index known to be in range. *)
  Definition at_ (l : list sf) (i : Z) : sf := nth (Z.to_nat i) l s0.

  (** utils.cpp:145-163 CalcBodyFramePos. The two indices are those of a cell whose
      height was accessed before, hence in range: terrain_ and vect_x_ have the same
      size. *)
  Definition calc_body_frame_pos (i j : Z) (z : sf) (g : ggrid K) (body : gbody K) : vec :=
    let o := ori_ body in
    let p := pos_ body in
    calc_rotation_quaternion
      (mkQuat (qw o) (sopp (qx o)) (sopp (qy o)) (sopp (qz o)))
      (mkVec (at_ (g_vect_x g) i -! vx p) (at_ (g_vect_y g) j -! vy p) (z -! vz p)).

  (** body_soil.cpp:79-91: position in the global frame. *)
  Definition place (pos : vec) (ori : quat) (x : vec) : vec :=
    vmap2 sadd (calc_rotation_quaternion ori x) pos.

  (** body_soil.cpp:109-113: static_cast<int>(round(x / cell_size_xy + half)) *)
  Definition cell_index (half : Z) (cell x : sf) : outcome Z :=
    d_int (dround (wid (x /! cell +! s_of_Z half))).

  (** body_soil.cpp:77-113: new position, signs of the displacement, whether the main
      direction is X, and new cell. *)
  Record moved_cell : Type := mkMoved {
    m_pos : vec; m_sx : Z; m_sy : Z; m_xmain : bool; m_i : Z; m_j : Z
  }.
  Definition move_cell (pos : vec) (ori : quat) (g : ggrid K) (body : gbody K) (x : vec)
    : outcome moved_cell :=
    let n := place pos ori x in
    let o := place (pos_ body) (ori_ body) x in
    let dx := vx n -! vx o in
    let dy := vy n -! vy o in
    i <- cell_index (g_half_x g) (g_cell_xy g) (vx n) ;;
    j <- cell_index (g_half_y g) (g_cell_xy g) (vy n) ;;
    Ok (mkMoved n (if sneg dx then -1 else 1) (if sneg dy then -1 else 1)
                (sabs dy <! sabs dx) i j).
End Geometry.
Arguments corners K : clear implicits.
Arguments moved_cell K : clear implicits.
