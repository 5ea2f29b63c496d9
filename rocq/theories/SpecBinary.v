(** Vocabulary of the runs in binary32 on a grid whose cell height is a power of two: the
    integers that the stored numbers stand for. *)
From Coq Require Import ZArith List Bool.
From Coq Require Import Floats.SpecFloat.
From Verif Require Import Outcome Num State ModelBodySoil ModelBodyPos ModelStep Base Spec
  Spec2 Flt FltB ModelTypes ModelProgram SpecSafe.
Import ListNotations.
Open Scope Z_scope.

(** A number of binary32 that is not infinite nor a NaN. *)
Definition finite32 (a : spec_float) : Prop :=
  valid_binary 24 128 a = true /\
  match a with S754_zero _ | S754_finite _ _ _ => True | _ => False end.

(** Its value in ticks of [2 ^ -149], the least positive number. An infinity or a NaN is
    given a value above all. *)
Definition ticks32 (a : spec_float) : Z :=
  match a with
  | S754_zero _ => 0
  | S754_finite s m e => cond_Zopp s (Zpos m) * 2 ^ (e + 149)
  | _ => 2 ^ 300
  end.

(** The number with the given value. *)
Definition height32 (x : Z) : spec_float := of_scaled 24 128 false x (-149).

(** A number of binary64 whose value is [x] ticks, zero being positive. *)
Definition level64 (a : spec_float) (x : Z) : Prop :=
  valid_binary 53 1024 a = true /\
  match a with
  | S754_zero s => s = false /\ x = 0
  | S754_finite s m e => cond_Zopp s (Zpos m) * 2 ^ (e + 1074) = x * 2 ^ 925
  | _ => False
  end.

(** A height that is a multiple of [2 ^ w] ticks. *)
Definition whole (w : Z) (a : spec_float) : Prop := finite32 a /\ (2 ^ w | ticks32 a).

(** Heights in ticks; the positions in the body frame and the heights of carried soil are
    those of the program, and the distances are what the program computes. *)
Definition units32 : units :=
  mkUnits (2 ^ 149) (vec spec_float) spec_float
    (fun z b => ticks32 (SFabs (SFsub 24 128 z (height32 b)))).

(** The exact state, grid, parameters and geometry that those of the program stand for. *)
Definition read_rec (e : rec_t (NumOf FltB)) : rec_t (ZNum units32) :=
  mkRec (A := ZNum units32) (e_ind e) (e_i e) (e_j e) (e_pos e) (ticks32 (e_h e)).
Definition read (s : sim (NumOf FltB)) : sim (ZNum units32) :=
  mkSim (A := ZNum units32) (nx s) (ny s) (equilibrium s)
    (fun i j => ticks32 (terrain s i j))
    (fun k i j => ticks32 (body s k i j))
    (fun k i j => ticks32 (body_soil s k i j))
    (map read_rec (records s)) (body_area s) (relax_area s) (impact_area s) (rng s) (wlog s).
Definition read_grid (g : grid_t (NumOf FltB)) : grid_t (ZNum units32) :=
  mkGrid (A := ZNum units32) (half_x g) (half_y g) (half_z g) (ticks32 (cell_z g))
    (fun k => ticks32 (cell_z g) * (k + 1 - half_z g)).
Definition read_params (g : grid_t (NumOf FltB)) (P : params (NumOf FltB))
  : params (ZNum units32) :=
  mkParams (ZNum units32) (ticks32 (p_dh_max P)) (p_max_iterations P) (p_cell_buffer P)
    (ticks32 (SFadd 24 128 (cell_z g) (p_tol P)) - ticks32 (cell_z g)).
Definition read_geom (G : geom (NumOf FltB)) : geom (ZNum units32) :=
  mkGeom (ZNum units32) (pose G) (g_moved G)
    (fun p i j z => g_frame G p i j (height32 z)) (g_raster G)
    (fun o p x =>
       r <- g_reloc G o p x ;; Ok (mkReloc (A := ZNum units32) (r_sx r) (r_sy r) (r_xmain r)
                                   (r_i r) (r_j r) (r_z r))).

(** The cell height is [2 ^ w] ticks; the levels are its multiples; the tolerance is at most
    a quarter of a cell, and large enough to be seen when it is added to a height of the
    grid; the maximum difference of height is a multiple of the cell height. *)
Definition dyadic (w : Z) (g : grid_t (NumOf FltB)) (P : params (NumOf FltB)) : Prop :=
  2 <= w <= 250 /\
  finite32 (cell_z g) /\ ticks32 (cell_z g) = 2 ^ w /\
  0 <= half_z g < 2 ^ 20 - 1 /\
  (forall k, 0 <= k <= 2 * half_z g -> level64 (vect_z g k) (2 ^ w * (k + 1 - half_z g))) /\
  finite32 (p_tol P) /\ 4 * ticks32 (p_tol P) <= 2 ^ w /\
  (half_z g + 1) * 2 ^ w <= (2 ^ 23 - 1) * ticks32 (p_tol P) /\
  whole w (p_dh_max P) /\ 0 <= ticks32 (p_dh_max P) <= (2 ^ 20 - 1) * 2 ^ w.

(** All heights are multiples of the cell height, and the body is in the grid. *)
Definition heights_ok (w : Z) (g : grid_t (NumOf FltB)) (s : sim (NumOf FltB)) : Prop :=
  (forall i j, inb s i j = true -> whole w (terrain s i j)) /\
  (forall k i j, 0 <= k < 4 -> inb s i j = true ->
     whole w (body s k i j) /\ body s k i j <> S754_zero true /\
     Z.abs (ticks32 (body s k i j)) <= (half_z g + 1) * 2 ^ w /\
     whole w (body_soil s k i j)) /\
  Forall (fun e : rec_t (NumOf FltB) => whole w (e_h e)) (records s).

(** Nothing is below the depth [d], and the amount of soil is at most [t]; a column that
    took all the soil would still be low enough. *)
Definition fits (w d t : Z) (g : grid_t (NumOf FltB)) (s : sim (NumOf FltB)) : Prop :=
  0 <= d /\ 0 <= t /\
  (forall i j, inb s i j = true -> - d <= ticks32 (terrain s i j)) /\
  (forall k i j, 0 <= k < 4 -> inb s i j = true -> - d <= ticks32 (body s k i j)) /\
  total_soil (read s) <= t /\
  2 * ((half_z g + 1) * 2 ^ w + d + t + nx s * ny s * d) <= (2 ^ 20 - 1) * 2 ^ w.

(** The walls of the body are not below the depth [d]; the heights of carried soil are
    numbers of binary32. *)
Definition walls_fit (w d : Z) (g : grid_t (NumOf FltB)) (G : geom (NumOf FltB))
  (legal : pose G -> Prop) (near : vec spec_float -> Prop) : Prop :=
  (forall p a walls l i j k, legal p -> g_raster G p = Ok (a, walls) ->
     In l walls -> In (i, j, k) l -> - d <= 2 ^ w * (k - half_z g)) /\
  (forall o p x r, legal o -> legal p -> near x -> g_reloc G o p x = Ok r ->
     valid_binary 24 128 (r_z r) = true).

(** Three numbers of binary32; a pose made of numbers of binary32. *)
Definition vec32 (v : vec spec_float) : Prop :=
  valid_binary 24 128 (vx v) = true /\ valid_binary 24 128 (vy v) = true /\
  valid_binary 24 128 (vz v) = true.
Definition pose32 (p : vec spec_float * quat spec_float) : Prop :=
  vec32 (fst p) /\
  valid_binary 24 128 (qw (snd p)) = true /\ valid_binary 24 128 (qx (snd p)) = true /\
  valid_binary 24 128 (qy (snd p)) = true /\ valid_binary 24 128 (qz (snd p)) = true.

(** The same data; the heights are compared on the grid. *)
Definition agree {upm} (s s' : sim (ZNum upm)) : Prop :=
  nx s = nx s' /\ ny s = ny s' /\ equilibrium s = equilibrium s' /\
  (forall i j, on_grid s i j -> (terrain s i j : Z) = terrain s' i j) /\
  (forall k i j, 0 <= k < 4 -> on_grid s i j ->
     (body s k i j : Z) = body s' k i j /\ (body_soil s k i j : Z) = body_soil s' k i j) /\
  records s = records s' /\ body_area s = body_area s' /\ relax_area s = relax_area s' /\
  impact_area s = impact_area s' /\ rng s = rng s' /\ wlog s = wlog s'.
