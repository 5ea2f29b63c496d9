(** Cells covered by the walls of a body: body_pos.cpp:39-107, 145-255, 296-841. *)
From Coq Require Import ZArith List Bool.
From Verif Require Import Outcome Flt State ModelTypes ModelGeometry ModelBodyPos.
Import ListNotations.
Open Scope Z_scope.
Open Scope flt_scope.

Section Raster.
  Context {K : flt}.
  Notation sf := (sf K).
  Notation df := (df K).
  Notation vec := (vec sf).
  Notation quat := (quat sf).
  Variable g : ggrid K.
  Variable tol : sf.

  (** body_pos.cpp:305-316 (537-545, 742-747): indices of a position. *)
  Definition ind_xy (half : Z) (x : sf) : sf := x /! g_cell_xy g +! s_of_Z half.
  Definition ind_z (z : sf) : sf :=
    nar (wid (z /! g_cell_z g +! s_of_Z (g_half_z g)) -!! d1).
  Definition to_ind (a : vec) : vec :=
    mkVec (ind_xy (g_half_x g) (vx a)) (ind_xy (g_half_y g) (vy a)) (ind_z (vz a)).

  (** ** CalcLinePos *)

  (** body_pos.cpp:764-781: offset to the first cell boundary. *)
  Definition offset_xy (up : bool) (x : sf) : sf :=
    if up then nar (dround (wid x) +!! d_half -!! wid x)
    else nar (wid x -!! dround (wid x) +!! d_half).
  Definition offset_z (up : bool) (z : sf) : sf :=
    if up then sceil z -! z else z -! sfloor z.

  (** body_pos.cpp:784-789 *)
  Definition no_zero (d : sf) : sf := if seqb d s0 then nar d_tiny else d.
  (** body_pos.cpp:792-797 *)
  Definition no_border (t : sf) : sf := if seqb t s0 then s_of_Z 1 else t.
  (** body_pos.cpp:800-802 *)
  Definition t_delta (d e f : sf) : sf :=
    nar (dsqrt (d1 +!! wid ((e *! e +! f *! f) /! (d *! d)))).

  (** body_pos.cpp:815-818, 835-838 *)
  Definition line_cell (x y z : sf) : outcome cell3 :=
    i <- d_int (dround (wid x)) ;;
    j <- d_int (dround (wid y)) ;;
    k <- s_int (sceil z) ;;
    Ok (i, j, k).

  Definition toward (up : bool) (x : sf) : sf := x +! s_of_Z (if up then 1 else -1).

  (** body_pos.cpp:821-839: the loop along the line. [ux uy uz]: whether step_x etc.
      is 1; [dx dy dz]: t_delta_x etc.; [tx ty tz]: t_max_x etc. *)
  Fixpoint line_loop (fuel : nat) (ux uy uz : bool) (dx dy dz norm : sf)
    (x y z tx ty tz : sf) : outcome (list cell3) :=
    if (tx <! norm) || (ty <! norm) || (tz <! norm) then
      match fuel with
      | O => OutOfFuel
      | S fuel =>
          let go x y z tx ty tz :=
            c <- line_cell x y z ;;
            l <- line_loop fuel ux uy uz dx dy dz norm x y z tx ty tz ;;
            Ok (c :: l) in
          if tx <! ty then
            if tx <! tz then go (toward ux x) y z (tx +! dx) ty tz
            else go x y (toward uz z) tx ty (tz +! dz)
          else
            if ty <! tz then go x (toward uy y) z tx (ty +! dy) tz
            else go x y (toward uz z) tx ty (tz +! dz)
      end
    else Ok [].

  (** body_pos.cpp:738-841 CalcLinePos, on indices (after lines 742-747). *)
  Definition line_pos (fuel : nat) (p q : vec) : outcome (list cell3) :=
    let ux := vx p <! vx q in
    let uy := vy p <! vy q in
    let uz := vz p <! vz q in
    let dx := no_zero (vx q -! vx p) in
    let dy := no_zero (vy q -! vy p) in
    let dz := no_zero (vz q -! vz p) in
    let ox := no_border (offset_xy ux (vx p)) in
    let oy := no_border (offset_xy uy (vy p)) in
    let oz := no_border (offset_z uz (vz p)) in
    let ex := t_delta dx dy dz in
    let ey := t_delta dy dx dz in
    let ez := t_delta dz dx dy in
    let norm := ssqrt (dx *! dx +! dy *! dy +! dz *! dz) in
    c <- line_cell (vx p) (vy p) (vz p) ;;
    l <- line_loop fuel ux uy uz ex ey ez norm (vx p) (vy p) (vz p)
           (ox *! ex) (oy *! ey) (oz *! ez) ;;
    Ok (c :: l).

  Definition calc_line_pos (fuel : nat) (a b : vec) : outcome (list cell3) :=
    line_pos fuel (to_ind a) (to_ind b).

  (** ** Decomposition of a surface *)

  (** An array of area_length_x by area_length_y entries is given by its rows. *)
  Definition entry {X} (d : X) (l : list (list X)) (i j : Z) : X :=
    nth (Z.to_nat j) (nth (Z.to_nat i) l []) d.

  (** body_pos.cpp:478-486 (703-711): coefficients of the top right corner of a
      cell. [ab ad a]: ab_ind, ad_ind (or ac_ind), a_ind. *)
  Definition corner_coeffs (ab ad a : vec) (min_x min_y i_s j_s : Z) : sf * sf :=
    let det := vx ab *! vy ad -! vy ab *! vx ad in
    let c_ab_x := vy ad /! det in
    let c_ab_y := vx ad /! det in
    let c_ad_x := vy ab /! det in
    let c_ad_y := vx ab /! det in
    let ii := nar (d_of_Z min_x +!! d_half +!! d_of_Z i_s) in
    let jj := nar (d_of_Z min_y +!! d_half +!! d_of_Z j_s) in
    (c_ab_x *! (ii -! vx a) -! c_ab_y *! (jj -! vy a),
     sopp c_ad_x *! (ii -! vx a) +! c_ad_y *! (jj -! vy a)).

  (** body_pos.cpp:488-489 and 713-714 *)
  Definition in_rectangle (c : sf * sf) : bool :=
    let '(c_ab, c_ad) := c in
    (tol <! c_ab) && (c_ab <! s_of_Z 1 -! tol) &&
    (tol <! c_ad) && (c_ad <! s_of_Z 1 -! tol).
  Definition in_triangle (c : sf * sf) : bool :=
    let '(c_ab, c_ac) := c in
    (tol <! c_ab) && (tol <! c_ac) && (wid (c_ab +! c_ac) <!! d1 -!! wid tol).

  (** body_pos.cpp:453-498 DecomposeVectorRectangle and 678-723
      DecomposeVectorTriangle: the two functions differ by the test [inside]. The
      coefficients are returned as pairs. *)
  Definition decompose (inside : sf * sf -> bool) (ab ad a : vec)
    (min_x min_y len_x len_y : Z) : list (list (sf * sf)) * list (list bool) * Z :=
    let cs := map (fun i => map (fun j => corner_coeffs ab ad a min_x min_y i j)
                              (zrange 0 len_y)) (zrange 0 len_x) in
    let ins := map (map inside) cs in
    let n := 4 * Z.of_nat (length (filter (fun b => b) (concat ins))) in
    (cs, ins, n).
  Definition decompose_vector_rectangle := decompose in_rectangle.
  Definition decompose_vector_triangle := decompose in_triangle.

  (** ** CalcRectanglePos and CalcTrianglePos *)

  (** v[n] = x, checked. *)
  Definition put (l : list cell3) (n : Z) (x : cell3) : outcome (list cell3) :=
    guard ((0 <=? n) && (n <? Z.of_nat (length l))) (Ok (list_set l (Z.to_nat n) x)).

  (** body_pos.cpp:358-391 (581-613): the inner cells. *)
  Definition fill_inner (cs : list (list (sf * sf))) (ins : list (list bool))
    (a ab ad : vec) (min_x max_x min_y max_y n_cell : Z) : outcome (list cell3) :=
    '(l, _) <- for_each
      (flat_map (fun i => map (fun j => (i, j)) (zrange min_y max_y)) (zrange min_x max_x))
      (fun c st =>
         let '(ii, jj) := c in
         let '(l, nn) := st in
         let i_s := ii - min_x in
         let j_s := jj - min_y in
         if entry false ins i_s j_s then
           let '(c_ab, c_ad) := entry (s0, s0) cs i_s j_s in
           kk <- s_int (sceil (vz a +! c_ab *! vz ab +! c_ad *! vz ad)) ;;
           l <- put l nn (ii, jj, kk) ;;
           l <- put l (nn + 1) (ii + 1, jj, kk) ;;
           l <- put l (nn + 2) (ii, jj + 1, kk) ;;
           l <- put l (nn + 3) (ii + 1, jj + 1, kk) ;;
           Ok (l, nn + 4)
         else Ok (l, nn))
      (repeat (0, 0, 0) (Z.to_nat n_cell), 0) ;;
    Ok l.

  (** body_pos.cpp:318-356, 358-391: the inner cells of the surface spanned by [ab]
      and [ad] at [a]; [others]: the other vertices. *)
  Definition surface_inner (inside : sf * sf -> bool) (a b d : vec) (others : list vec)
    : outcome (list cell3) :=
    let ai := to_ind a in
    let oi := map to_ind others in
    min_x <- s_int (sfloor (smin_list (vx ai) (map vx oi))) ;;
    max_x <- s_int (sceil (smax_list (vx ai) (map vx oi))) ;;
    min_y <- s_int (sfloor (smin_list (vy ai) (map vy oi))) ;;
    max_y <- s_int (sceil (smax_list (vy ai) (map vy oi))) ;;
    len_x <- chk_int (max_x - min_x) ;;
    len_y <- chk_int (max_y - min_y) ;;
    let ab := vmap2 ssub b a in
    let ad := vmap2 ssub d a in
    let ab := mkVec (vx ab /! g_cell_xy g) (vy ab /! g_cell_xy g) (vz ab /! g_cell_z g) in
    let ad := mkVec (vx ad /! g_cell_xy g) (vy ad /! g_cell_xy g) (vz ad /! g_cell_z g) in
    let '(cs, ins, n) := decompose inside ab ad ai min_x min_y len_x len_y in
    n <- chk_int n ;;
    fill_inner cs ins ai ab ad min_x max_x min_y max_y n.

  (** body_pos.cpp:296-403 CalcRectanglePos *)
  Definition calc_rectangle_pos (fuel : nat) (a b c d : vec) : outcome (list cell3) :=
    l <- surface_inner in_rectangle a b d [b; c; d] ;;
    ab <- calc_line_pos fuel a b ;;
    bc <- calc_line_pos fuel b c ;;
    cd <- calc_line_pos fuel c d ;;
    da <- calc_line_pos fuel d a ;;
    Ok (l ++ ab ++ bc ++ cd ++ da).

  (** body_pos.cpp:526-627 CalcTrianglePos *)
  Definition calc_triangle_pos (fuel : nat) (a b c : vec) : outcome (list cell3) :=
    l <- surface_inner in_triangle a b c [b; c] ;;
    ab <- calc_line_pos fuel a b ;;
    bc <- calc_line_pos fuel b c ;;
    ca <- calc_line_pos fuel c a ;;
    Ok (l ++ ab ++ bc ++ ca).

  (** ** The walls of a body *)

  (** body_pos.cpp:47-49 etc.: p += tol * ((q - p) + (r - p) + (s - p)) *)
  Definition nudge1 (p q r s : sf) : sf :=
    p +! tol *! ((q -! p) +! (r -! p) +! (s -! p)).
  Definition nudge (p q r s : vec) : vec :=
    mkVec (nudge1 (vx p) (vx q) (vx r) (vx s)) (nudge1 (vy p) (vy q) (vy r) (vy s))
          (nudge1 (vz p) (vz q) (vz r) (vz s)).

  (** body_pos.cpp:43-65: each vertex is moved using the vertices already moved. *)
  Definition nudge_corners (c : corners K) : corners K :=
    let jr := nudge (j_r c) (j_l c) (b_r c) (t_r c) in
    let jl := nudge (j_l c) jr (b_l c) (t_l c) in
    let br := nudge (b_r c) (b_l c) jr (t_r c) in
    let bl := nudge (b_l c) br jl (t_l c) in
    let tr := nudge (t_r c) (t_l c) jr br in
    let tl := nudge (t_l c) tr jl bl in
    mkCorners jr jl br bl tr tl.

  (** body_pos.cpp:81-96: one row of body_area_. *)
  Definition area_row (half buffer : Z) (lo hi : sf) : outcome (Z * Z) :=
    l <- d_int (dmax (dround (wid (lo /! g_cell_xy g +! s_of_Z half -! s_of_Z buffer))) d1) ;;
    h <- d_int (dmin (dround (wid (hi /! g_cell_xy g +! s_of_Z half +! s_of_Z buffer)))
                     (d2 *!! d_of_Z half)) ;;
    Ok (l, h).

  (** body_pos.cpp:67-96 (191-236): body_area_ from the vertices [a :: l]. *)
  Definition new_area (buffer : Z) (a : vec) (l : list vec) : outcome area :=
    '(xl, xh) <- area_row (g_half_x g) buffer (smin_list (vx a) (map vx l))
                   (smax_list (vx a) (map vx l)) ;;
    '(yl, yh) <- area_row (g_half_y g) buffer (smin_list (vy a) (map vy l))
                   (smax_list (vy a) (map vy l)) ;;
    Ok (mkArea xl xh yl yh).

  (** body_pos.cpp:39-107: the bucket. The casts of lines 81-96 come before the
      rasterisation, as in the code. *)
  Definition raster_bucket (fuel : nat) (buffer : Z) (body : gbody K) (pos : vec) (ori : quat)
    : outcome (area * list (list cell3)) :=
    let c := nudge_corners (calc_body_corner_pos pos ori body) in
    area <- new_area buffer (j_r c) [j_l c; b_r c; b_l c; t_r c; t_l c] ;;
    base <- calc_rectangle_pos fuel (b_r c) (b_l c) (t_l c) (t_r c) ;;
    back <- calc_rectangle_pos fuel (b_r c) (b_l c) (j_l c) (j_r c) ;;
    right <- calc_triangle_pos fuel (j_r c) (b_r c) (t_r c) ;;
    left <- calc_triangle_pos fuel (j_l c) (b_l c) (t_l c) ;;
    Ok (area, [base; back; right; left]).

  (** body_pos.cpp:145-255: the blade. *)
  Definition raster_blade (fuel : nat) (buffer : Z) (body : gbody K) (pos : vec) (ori : quat)
    : outcome (area * list (list cell3)) :=
    let f := calc_body_corner_pos pos ori body in
    let n := calc_normal (j_r f) (j_l f) (b_l f) in
    let back p := vmap2 (fun x y => x +! g_cell_xy g *! y) p n in
    let b := nudge_corners (mkCorners (back (j_r f)) (back (j_l f)) (back (b_r f))
                                      (back (b_l f)) (back (t_r f)) (back (t_l f))) in
    let f := nudge_corners f in
    area <- new_area buffer (j_r f)
              [j_l f; b_r f; b_l f; t_r f; t_l f; j_r b; j_l b; b_r b; b_l b; t_r b; t_l b] ;;
    ankle_f <- calc_rectangle_pos fuel (b_r f) (b_l f) (j_l f) (j_r f) ;;
    ankle_b <- calc_rectangle_pos fuel (b_r b) (b_l b) (j_l b) (j_r b) ;;
    heel_f <- calc_rectangle_pos fuel (t_r f) (t_l f) (j_l f) (j_r f) ;;
    heel_b <- calc_rectangle_pos fuel (t_r b) (t_l b) (j_l b) (j_r b) ;;
    Ok (area, [ankle_f; ankle_b; heel_f; heel_b]).
End Raster.
