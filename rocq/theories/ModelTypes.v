(** Constructors of Grid, Body and SimParam: types.cpp. *)
From Coq Require Import ZArith List Bool.
From Verif Require Import Outcome Flt.
Import ListNotations.
Open Scope Z_scope.
Open Scope flt_scope.

(** A constructor returns an object, throws std::invalid_argument or has undefined
    behaviour. The number is the rank of the failing check in the constructor. *)
Inductive built (T : Type) : Type :=
| Built (x : T)
| Throws (check : nat)
| BuildUB (r : ub).
Arguments Built {T} _.
Arguments Throws {T} _.
Arguments BuildUB {T} _.

Section Types.
  Context {K : flt}.
  Notation sf := (sf K).
  Notation df := (df K).

  (** The first check that holds makes the constructor throw. *)
  Fixpoint checks {T} (n : nat) (l : list bool) (k : built T) : built T :=
    match l with
    | [] => k
    | true :: _ => Throws n
    | false :: l' => checks (S n) l' k
    end.

  Definition of_outcome {T} (o : outcome T) : built T :=
    match o with
    | Ok x => Built x
    | UB r => BuildUB r
    | OutOfFuel => BuildUB Unset         (* not produced below *)
    end.

  (** types.hpp: class Grid. *)
  Record ggrid : Type := mkGGrid {
    g_half_x : Z;
    g_half_y : Z;
    g_half_z : Z;
    g_cell_xy : sf;
    g_cell_z : sf;
    g_cell_area : sf;
    g_cell_volume : sf;
    g_vect_x : list sf;
    g_vect_y : list sf;
    g_vect_z : list df
  }.

  (** types.cpp:60-62 etc.: v[0] = first; v[ii] = v[ii-1] + step. *)
  Fixpoint levels {T} (next : T -> T) (first : T) (n : nat) : list T :=
    match n with
    | O => []
    | S n' => first :: levels next (next first) n'
    end.

  (** types.cpp:48-50: static_cast<int>(round(size / cell)), and the size
      2 * half + 1 of the vectors. *)
  Definition half_length (size cell : sf) : outcome Z :=
    h <- d_int (dround (wid (size /! cell))) ;;
    _ <- chk_int (2 * h + 1) ;;
    Ok h.

  (** types.cpp:14-74 Grid::Grid. The order of the statements that cannot fail is
      not kept: the three sizes come first. *)
  Definition new_grid (size_x size_y size_z cell_xy cell_z : sf) : built ggrid :=
    checks 0
      [ wid cell_z <=!! d0;
        wid cell_xy <=!! d0;
        wid size_x <=!! d0;
        wid size_y <=!! d0;
        wid size_z <=!! d0;
        cell_xy <! cell_z;
        size_x <! cell_xy;
        size_y <! cell_xy;
        size_z <! cell_z ]
      (of_outcome
         (hx <- half_length size_x cell_xy ;;
          hy <- half_length size_y cell_xy ;;
          hz <- half_length size_z cell_z ;;
          let area := cell_xy *! cell_xy in
          Ok (mkGGrid hx hy hz cell_xy cell_z area (area *! cell_z)
                (levels (fun v => v +! cell_xy) (sopp size_x) (Z.to_nat (2 * hx + 1)))
                (levels (fun v => v +! cell_xy) (sopp size_y) (Z.to_nat (2 * hy + 1)))
                (levels (fun v => v +!! wid cell_z) (wid (sopp size_z +! cell_z))
                   (Z.to_nat (2 * hz + 1)))))).

  (** types.hpp: class Body. *)
  Record gbody : Type := mkGBody {
    j_init : vec sf;
    b_init : vec sf;
    t_init : vec sf;
    width : sf;
    pos_ : vec sf;
    ori_ : quat sf
  }.

  (** operator== of std::vector<float>. *)
  Fixpoint vector_eqb (a b : list sf) : bool :=
    match a, b with
    | [], [] => true
    | x :: a', y :: b' => (x ==! y) && vector_eqb a' b'
    | _, _ => false
    end.

  (** a[0], a[1], a[2] of a vector that passed the checks of its size. *)
  Definition to_vec (a : list sf) : vec sf :=
    mkVec (nth 0 a s0) (nth 1 a s0) (nth 2 a s0).

  (** types.cpp:76-127 Body::Body. *)
  Definition new_body (o j b t : list sf) (w : sf) : built gbody :=
    checks 0
      [ negb (length o =? 3)%nat;
        negb (length j =? 3)%nat;
        negb (length b =? 3)%nat;
        negb (length t =? 3)%nat;
        vector_eqb j b;
        vector_eqb j t;
        vector_eqb b t;
        wid w <=!! d0 ]
      (Built (mkGBody
         (vmap2 ssub (to_vec j) (to_vec o))
         (vmap2 ssub (to_vec b) (to_vec o))
         (vmap2 ssub (to_vec t) (to_vec o))
         w (mkVec s0 s0 s0) (mkQuat s0 s0 s0 s0))).

  (** types.hpp: class SimParam. *)
  Record gparam : Type := mkGParam {
    repose_angle : sf;
    max_iterations : Z;
    cell_buffer : Z
  }.

  (** types.cpp:129-147 SimParam::SimParam; [pi] is std::numbers::pi. The two ints
      are compared after conversion to double, which is exact. *)
  Definition new_param (pi : df) (angle : sf) (iterations buffer : Z) : built gparam :=
    checks 0
      [ (pi /!! d2 <!! wid angle) || (wid angle <!! d0);
        iterations <? 0;
        buffer <? 2 ]
      (Built (mkGParam angle iterations buffer)).

  (** relax.cpp:48-52 and 161-164; [tan] is std::tan(float). *)
  Definition dh_max (tan : sf -> sf) (g : ggrid) (p : gparam) : sf :=
    let slope := tan (repose_angle p) in
    let dh := g_cell_xy g *! slope in
    nar (wid (g_cell_z g) *!! dround (wid (dh /! g_cell_z g))).
End Types.

Arguments ggrid K : clear implicits.
Arguments gbody K : clear implicits.
Arguments gparam K : clear implicits.
