(** The example program over the real numbers: Init with its noise, and SoilEvolution from
    the trajectory to the last file. *)
From Coq Require Import Reals ZArith List Bool String.
From Verif Require Import Outcome Num State Base Flt FltR ModelTypes ModelGeometry ModelBodySoil
  ModelBodyPos ModelUtils ModelStep ModelRaster ModelNoise ModelWhole ModelFiles ModelExample
  ModelCheckLoop ModelOutputs.
Import ListNotations.
Open Scope Z_scope.

Section WholeInit.
  Variable t : Z.

  (** The height [h] as a number of ticks; Init only writes multiples of the cell height,
      which are integer numbers of ticks (C59_init). *)
  Definition ticks (h : R) : Z := zround (h * IZR t).

  (** soil_dynamics.cpp:18-59 Init. *)
  Definition whole_init (g : ggrid FltR) (amp : R) (s : sim (ZNum (wunits t)))
    : outcome (sim (ZNum (wunits t))) :=
    let '(table, r) := perm_table (rng s) in
    for_each (all_cells s)
      (fun c (s : sim (ZNum (wunits t))) =>
         h <- cell_noise (K := FltR) g amp (map Z.of_nat table) (fst c) (snd c) ;;
         Ok (set_t (A := ZNum (wunits t)) s (fst c) (snd c) (ticks h))) (set_rng s r).
End WholeInit.

Section Evolution.
  Variable k : kind.
  Variable t : Z.
  Variable to_ticks : R -> Z.
  Variable g : ggrid FltR.
  Variable cz : Z.
  Variable b : gbody FltR.
  Variable P : params (ZNum (wunits t)).
  Variable pr : printer (ZNum (wunits t)).
  Variable p_float : R -> string.
  Variable src : string.

  (** soil_evolution.cpp:97-335 SoilEvolution, once the trajectory [traj] is known: the
      poses and times (lines 97-303), Init with amplitude 32 (line 306), the initial volume
      (lines 308-314), the loop (lines 317-332). [rg] is the generator when Init is called,
      [l] the warnings written before. [steps], [lines] and [fuel] bound the loops. *)
  Definition soil_evolution (steps lines fuel : nat) (chk wr : bool)
    (traj : list (vec R * vec R)) (rg : rng_t) (l : list warning) (fs : files)
    : outcome (world (wgeom k t to_ticks g b P lines) * files) :=
    ps <- stepped (K := FltR) sin cos g b traj steps ;;
    s <- whole_init t g 32 (new_sim (wgrid t g cz) rg l) ;;
    v <- (if chk then init_volume (wgrid t g cz) s else Ok 0) ;;
    main_loop (K := FltR) (wgeom k t to_ticks g b P lines) (wgrid t g cz) P k pr p_float src
      (at_pose b) fuel chk wr v (map Some ps) (s, None) fs.
End Evolution.
