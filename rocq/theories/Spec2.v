(** Vocabulary of the properties of Step: what is assumed about the grid, the
    parameters and the geometry, and what holds between two calls. *)
From Coq Require Import ZArith List Bool.
From Verif Require Import Outcome Num State Base Spec ModelBodySoil ModelBodyPos
  ModelUtils ModelStep.
Import ListNotations.
Open Scope Z_scope.

Section Spec2.
  Context {upm : units}.
  Local Notation sim := (sim (ZNum upm)).
  Local Notation grid := (grid_t (ZNum upm)).
  Local Notation geom := (geom (ZNum upm)).
  Local Notation params := (params (ZNum upm)).

  (** A grid with an interior, whose vertical levels are the multiples of the
      cell height (what Grid::Grid computes, up to rounding). *)
  Definition grid_ok (g : grid) : Prop :=
    1 <= half_x g /\ 1 <= half_y g /\ 0 < (cell_z g : Z) /\
    forall k, 0 <= k <= 2 * half_z g ->
      (vect_z g k : Z) = (cell_z g : Z) * (k + 1 - half_z g).

  (** The tolerance is positive and below half a cell; the maximum slope is what
      RelaxTerrain computes from a repose angle in [0, pi/2[; the number of cells
      fits in an int. *)
  Definition params_ok (g : grid) (P : params) : Prop :=
    0 < (p_tol P : Z) /\ 2 * (p_tol P : Z) < (cell_z g : Z) /\
    0 <= (p_dh_max P : Z) /\ aligned (cell_z g) (p_dh_max P) /\
    0 <= p_cell_buffer P /\
    2 * half_x g + 1 + p_cell_buffer P <= 2147483647 /\
    2 * half_y g + 1 + p_cell_buffer P <= 2147483647.

  (** The state has the size of the grid. *)
  Definition sized (g : grid) (s : sim) : Prop :=
    nx s = 2 * half_x g + 1 /\ ny s = 2 * half_y g + 1.

  (** The area does not reach the border ring of the grid. *)
  Definition within_grid (g : grid) (a : area) : Prop :=
    1 <= x_lo a /\ x_hi a <= 2 * half_x g /\ 1 <= y_lo a /\ y_hi a <= 2 * half_y g.

  (** The rasterised body of a pose: walls that are not empty, whose cells are in
      the body area, which is strictly inside the grid, and whose levels exist. *)
  Definition raster_ok (g : grid) (a : area) (walls : list (list cell3)) : Prop :=
    within_grid g a /\
    (forall w, In w walls -> w <> []) /\
    forall w i j k, In w walls -> In (i, j, k) w ->
      in_area a i j /\ 0 <= k <= 2 * half_z g.

  (** The poses considered. [near] says which positions in the body frame may be
      stored in a record: it holds of the positions computed on the top of the
      rasterised cells, and soil stored there is sent by the change of pose to a
      cell whose neighbours are in the grid. *)
  Definition geom_ok (g : grid) (G : geom) (legal : pose G -> Prop)
    (near : Pos (ZNum upm) -> Prop) : Prop :=
    (forall p, legal p -> exists a walls,
       g_raster G p = Ok (a, walls) /\ raster_ok g a walls /\
       forall w i j k, In w walls -> In (i, j, k) w ->
         near (g_frame G p i j (vect_z g k))) /\
    (forall p p' x, legal p -> legal p' -> near x -> exists r,
       g_reloc G p p' x = Ok r /\
       1 <= r_i r <= 2 * half_x g - 1 /\ 1 <= r_j r <= 2 * half_y g - 1).

  (** What holds between two calls of Step: the data is consistent, nothing goes
      through anything, the body is in its area, and the pose stored in the body is
      a pose of the body if soil is recorded with respect to it. *)
  Definition state_ok (g : grid) (G : geom) (legal : pose G -> Prop)
    (near : Pos (ZNum upm) -> Prop) (w : world G) : Prop :=
    let '(s, old) := w in
    sized g s /\
    consistent near (cell_z g) s (records s) /\ terrain_below s /\ soil_below s /\
    (forall k i j, on_grid s i j -> layer k -> body_at s k i j ->
       in_area (body_area s) i j /\
       near (g_frame G old i j (body s (k + 1) i j))) /\
    within_grid g (body_area s) /\ within_grid g (relax_area s) /\
    (records s = [] \/ legal old).

  (** Soil is never created; it is lost if and only if the warning says so. *)
  Definition balanced (s s' : sim) : Prop :=
    exists new, wlog s' = wlog s ++ new /\
      total_soil s' <= total_soil s /\
      (total_soil s' <> total_soil s <-> In WRemoved new).
End Spec2.
