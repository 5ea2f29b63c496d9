(** Simplex noise and its use by Init: utils.cpp:703-771, soil_dynamics.cpp:36-56. *)
From Coq Require Import ZArith List Bool.
From Verif Require Import Outcome Flt ModelTypes.
Import ListNotations.
Open Scope Z_scope.
Open Scope flt_scope.

(** v[n], checked. *)
Definition vec_at {X} (d : X) (l : list X) (n : Z) : outcome X :=
  guard ((0 <=? n) && (n <? Z.of_nat (length l))) (Ok (nth (Z.to_nat n) l d)).

(** utils.cpp:735-737 *)
Definition noise_directions : list (Z * Z) :=
  [(1, 0); (-1, 0); (0, 1); (0, -1); (1, 1); (1, -1); (-1, 1); (-1, -1)].

Section Noise.
  Context {K : flt}.
  Notation sf := (sf K).
  Notation df := (df K).

  Definition d3 : df := d_of_Z 3.
  Definition d6 : df := d_of_Z 6.
  Definition sqrt3 : df := dsqrt d3.

  (** utils.cpp:740-747 (751-758, 762-769): the contribution of the corner (i, j) of
      the cell, at (x, y) from the point. Only the second access is masked. *)
  Definition corner_noise (table : list Z) (i j : Z) (x y : sf) : outcome sf :=
    let t := nar (d_half -!! wid (x *! x) -!! wid (y *! y)) in
    if wid t <!! d0 then Ok s0
    else
      let t := t *! t in
      p <- vec_at 0 table j ;;
      n <- chk_int (i + p) ;;
      q <- vec_at 0 table (Z.land n 255) ;;
      '(dx, dy) <- vec_at (0, 0) noise_directions (Z.land q 7) ;;
      Ok (t *! t *! (x *! s_of_Z dx +! y *! s_of_Z dy)).

  (** utils.cpp:703-771 simplex_noise *)
  Definition simplex_noise (x y : sf) (table : list Z) : outcome sf :=
    let s := nar (wid (x +! y) *!! (sqrt3 -!! d1) /!! d2) in
    xi <- s_int (sfloor (x +! s)) ;;
    yi <- s_int (sfloor (y +! s)) ;;
    n <- chk_int (xi + yi) ;;
    let s := nar (d_of_Z n *!! (d3 -!! sqrt3) /!! d6) in
    let x0 := x -! (s_of_Z xi -! s) in
    let y0 := y -! (s_of_Z yi -! s) in
    let '(i1, j1) := if y0 <! x0 then (1, 0) else (0, 1) in
    let side v k := nar (wid (v -! s_of_Z k) +!! (d3 -!! sqrt3) /!! d6) in
    let far v := nar (wid v -!! d1 +!! d2 *!! (d3 -!! sqrt3) /!! d6) in
    xi1 <- chk_int (xi + i1) ;;
    yi1 <- chk_int (yi + j1) ;;
    xi2 <- chk_int (xi + 1) ;;
    yi2 <- chk_int (yi + 1) ;;
    g0 <- corner_noise table xi yi x0 y0 ;;
    g1 <- corner_noise table xi1 yi1 (side x0 i1) (side y0 j1) ;;
    g2 <- corner_noise table xi2 yi2 (far x0) (far y0) ;;
    Ok (g0 +! g1 +! g2).

  (** soil_dynamics.cpp:39-42: position rescaled; [v]: vect_x_ or vect_y_. *)
  Definition rescaled (v : list sf) (i : Z) : outcome sf :=
    a <- vec_at s0 v 0 ;;
    b <- vec_at s0 v i ;;
    Ok ((a -! b) /! (s_of_Z 2 *! a)).

  (** soil_dynamics.cpp:36-56: the new height of a cell. *)
  Definition cell_noise (g : ggrid K) (amp : sf) (table : list Z) (i j : Z) : outcome sf :=
    x <- rescaled (g_vect_x g) i ;;
    y <- rescaled (g_vect_y g) j ;;
    n1 <- simplex_noise (s_of_Z 1 *! x) (s_of_Z 1 *! y) table ;;
    n2 <- simplex_noise (s_of_Z 2 *! x) (s_of_Z 2 *! y) table ;;
    n4 <- simplex_noise (s_of_Z 4 *! x) (s_of_Z 4 *! y) table ;;
    n8 <- simplex_noise (s_of_Z 8 *! x) (s_of_Z 8 *! y) table ;;
    let lit n := d_of_Z 1 /!! d_of_Z n in          (* 0.5, 0.25, 0.125, 0.0625 *)
    let v := nar (wid amp *!! (lit 2 *!! wid n1 +!! lit 4 *!! wid n2 +!!
                               lit 8 *!! wid n4 +!! lit 16 *!! wid n8)) in
    Ok (nar (wid (g_cell_z g) *!! dround (wid (v /! g_cell_z g)))).
End Noise.
