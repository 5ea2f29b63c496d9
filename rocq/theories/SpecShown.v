(** The body in the grid is the body at the stored pose (C53). *)
From Coq Require Import ZArith List Reals.
From Verif Require Import Outcome Num State Spec Spec2 ModelBodyPos ModelStep Flt FltR ModelGeometry ModelRaster.
Import ListNotations.
Open Scope Z_scope.

(** Every bottom and every top of the body is the one of a cell of a wall, and every run of
    cells of a wall in a column is in one layer of the body. *)
Definition shows {upm : units} (g : grid_t (ZNum upm)) (walls : list (list cell3)) (s : sim (ZNum upm)) : Prop :=
  (forall i j k, on_grid s i j -> layer k -> body_at s k i j ->
     (exists w z, In w walls /\ In (i, j, z) w /\ (body s k i j : Z) = (vect_z g z : Z) - (cell_z g : Z)) /\
     (exists w z, In w walls /\ In (i, j, z) w /\ (body s (k + 1) i j : Z) = vect_z g z)) /\
  (forall w i j z z', In w walls -> In (i, j, z) w -> In (i, j, z') w ->
     exists k, layer k /\ body_at s k i j /\
       (body s k i j : Z) <= (vect_z g z : Z) - (cell_z g : Z) /\
       (vect_z g z' : Z) <= (body s (k + 1) i j : Z)).

(** The grid holds the body at the pose that is stored in it. *)
Definition up_to_date {upm : units} (g : grid_t (ZNum upm)) (G : geom (ZNum upm)) (w : world G) : Prop :=
  exists a walls, g_raster G (snd w) = Ok (a, walls) /\ body_area (fst w) = a /\ shows g walls (fst w).

(** There is body above the terrain in the column. *)
Definition stopped {upm : units} (s : sim (ZNum upm)) (i j : Z) : Prop :=
  exists k, layer k /\ body_at s k i j /\ (terrain s i j : Z) <= (body s k i j : Z).
