(** Properties of the whole simulator (ModelWhole.v): the soil half driven by the
    geometry of the code, from the constructors and Init to the end of any sequence
    of calls of Step. Statements only; the proofs are in the other files.

    [mission k t g cz prm b P r lines ps] (WholeClaims.v) is what the caller ensures:
    the objects come from the constructors, the grid is a whole number of cells high,
    0 < tol < half a cell, the corners of the body are within [r] of its position and
    each pose of [ps] keeps the body away from the border of the grid. The theorems
    hold of both kinds of body [k], of any rounding [to_ticks] of the height of the
    soil that is moved with the body, and of any initial terrain. *)
From Coq Require Import Reals ZArith List Bool.
From Verif Require Import Outcome Num Base Flt FltR State Spec Spec2
  ModelTypes ModelGeometry ModelBodySoil ModelBodyPos ModelUtils ModelStep ModelRaster ModelWhole
  SpecGeo PoseProofs TypesProofs InsideProofs GeoClaims CheckProofs WholeProofs WholeClaims.
Import ListNotations.
Open Scope R_scope.

(** ** C01 *)
Theorem C01_whole :
  forall k t to_ticks g cz prm b P r lines ps, mission k t g cz prm b P r lines ps ->
  forall noise rg l fuel w',
  let start := init (A := ZNum (wunits t)) (wgrid t g cz) noise (new_sim (wgrid t g cz) rg l) in
  wrun k t to_ticks g cz b P lines fuel ps start = Ok w' ->
  exists new, wlog (fst w') = wlog start ++ new /\
    (total_soil (fst w') <= total_soil start)%Z /\
    (total_soil (fst w') = total_soil start <-> ~ In WRemoved new).
Proof. exact mission_balanced. Qed.
Print Assumptions C01_whole.
(** The poses, the objects and the units of [demo_mission] meet the hypothesis. *)
Example C01_whole_example : forall k,
  mission k mission_t demo_g mission_cz mission_prm mission_b mission_P 1 250 mission_ps.
Proof. exact demo_mission. Qed.

(** ** C02 *)
Theorem C02_whole :
  forall k t to_ticks g cz prm b P r lines ps, mission k t g cz prm b P r lines ps ->
  forall noise rg l fuel w',
  let start := init (A := ZNum (wunits t)) (wgrid t g cz) noise (new_sim (wgrid t g cz) rg l) in
  wrun k t to_ticks g cz b P lines fuel ps start = Ok w' ->
  forall v s1,
  check_volume (A := ZNum (wunits t)) (p_tol P) cz v start = Ok (s1, true) ->
  (forall new, wlog (fst w') = wlog start ++ new -> ~ In WRemoved new) ->
  (abs_volume cz (fst w') <= 2147483647)%Z ->
  check_volume (A := ZNum (wunits t)) (p_tol P) cz v (fst w') = Ok (fst w', true).
Proof. exact mission_volume. Qed.
Print Assumptions C02_whole.

(** ** C03 *)
Theorem C03_whole :
  forall k t to_ticks g cz prm b P r lines ps, mission k t g cz prm b P r lines ps ->
  forall noise rg l fuel w',
  wrun k t to_ticks g cz b P lines fuel ps
    (init (A := ZNum (wunits t)) (wgrid t g cz) noise (new_sim (wgrid t g cz) rg l)) = Ok w' ->
  check_soil (A := ZNum (wunits t)) (p_tol P) (fst w') = Ok (fst w', true).
Proof. exact mission_check. Qed.
Print Assumptions C03_whole.

(** ** C04 *)
Theorem C04_whole :
  forall k t to_ticks (g : rgrid) cz (b : rbody) P lines fuel s old new,
  0 < Rmin (g_cell_xy g) (g_cell_z g) ->
  (corners_still g b old new ->
   step (wgeom k t to_ticks g b P lines) (wgrid t g cz) P fuel (Some new) (s, Some old) =
     Ok ((s, Some old), false)) /\
  (forall w' m,
   step (wgeom k t to_ticks g b P lines) (wgrid t g cz) P fuel (Some new) (s, Some old) = Ok (w', m) ->
   (m = false <-> corners_still g b old new) /\
   snd w' = if m then Some new else Some old).
Proof. exact whole_still. Qed.
Print Assumptions C04_whole.

(** ** C05 *)
Theorem C05_whole :
  forall k t to_ticks (g : rgrid) cz (b : rbody) P lines fuel ps s old new,
  0 < Rmin (g_cell_xy g) (g_cell_z g) ->
  Forall (corners_still g b old) ps ->
  let G := wgeom k t to_ticks g b P lines in
  run G (wgrid t g cz) P fuel (map Some ps ++ [Some new]) (s, Some old) =
    bind (step G (wgrid t g cz) P fuel (Some new) (s, Some old)) (fun r => Ok (fst r)).
Proof. exact whole_drift. Qed.
Print Assumptions C05_whole.

(** ** C06 *)
Theorem C06_whole :
  forall k t to_ticks g cz prm b P r lines ps, mission k t g cz prm b P r lines ps ->
  forall noise rg l fuel u,
  wrun k t to_ticks g cz b P lines fuel ps
    (init (A := ZNum (wunits t)) (wgrid t g cz) noise (new_sim (wgrid t g cz) rg l)) <> UB u.
Proof. exact mission_defined. Qed.
Print Assumptions C06_whole.

(** ** C07 *)
Theorem C07_whole :
  forall k t to_ticks g cz prm b P r lines ps, mission k t g cz prm b P r lines ps ->
  forall noise rg l,
  exists w', exists n, forall fuel, (n <= fuel)%nat ->
    wrun k t to_ticks g cz b P lines fuel ps
      (init (A := ZNum (wunits t)) (wgrid t g cz) noise (new_sim (wgrid t g cz) rg l)) = Ok w'.
Proof. exact mission_total. Qed.
Print Assumptions C07_whole.

(** ** C11 and C12 *)
Theorem C11_whole :
  forall k t to_ticks g cz prm b P r lines ps, mission k t g cz prm b P r lines ps ->
  forall noise rg l fuel w',
  wrun k t to_ticks g cz b P lines fuel ps
    (init (A := ZNum (wunits t)) (wgrid t g cz) noise (new_sim (wgrid t g cz) rg l)) = Ok w' ->
  terrain_below (fst w') /\ soil_below (fst w').
Proof. exact mission_below. Qed.
Print Assumptions C11_whole.

(** ** C13 *)
Theorem C13_whole :
  forall k t to_ticks g cz prm b P r lines ps, mission k t g cz prm b P r lines ps ->
  forall noise rg l fuel w',
  wrun k t to_ticks g cz b P lines fuel ps
    (init (A := ZNum (wunits t)) (wgrid t g cz) noise (new_sim (wgrid t g cz) rg l)) = Ok w' ->
  (forall i j k, on_grid (fst w') i j -> layer k ->
     soil_height (fst w') k i j = recorded (records (fst w')) k i j /\
     (soil_on (fst w') k i j -> listed (records (fst w')) k i j)) /\
  (forall e, In e (records (fst w')) ->
     (0 <= (e_h e : Z))%Z /\ aligned cz (e_h e) /\ layer (e_ind e) /\
     inside (fst w') (e_i e) (e_j e)).
Proof. exact mission_records. Qed.
Print Assumptions C13_whole.

(** ** C14 *)
Theorem C14_whole :
  forall k t to_ticks g cz prm b P r lines ps, mission k t g cz prm b P r lines ps ->
  forall noise rg l fuel w',
  wrun k t to_ticks g cz b P lines fuel ps
    (init (A := ZNum (wunits t)) (wgrid t g cz) noise (new_sim (wgrid t g cz) rg l)) = Ok w' ->
  forall i j k, on_grid (fst w') i j -> layer k -> soil_on (fst w') k i j ->
    body_at (fst w') k i j /\ body_soil (fst w') k i j = body (fst w') (k + 1) i j /\
    ((body_soil (fst w') k i j : Z) <= body_soil (fst w') (k + 1) i j)%Z.
Proof. exact mission_rests. Qed.
Print Assumptions C14_whole.

(** ** The two views of the same numbers (trusted base of the theorems above) *)
(** The levels of the soil half are those of the constructor of Grid. *)
Theorem C28_levels :
  forall sx sy sz cxy cz, sizes_ok sx sy sz cxy cz ->
  forall n, sz = IZR n * cz -> forall t czt, metres t czt = cz ->
  let g := grid_of sx sy sz cxy cz in
  forall k, (0 <= k <= 2 * g_half_z g)%Z ->
  metres t (vect_z (wgrid t g czt) k) = nth (Z.to_nat k) (g_vect_z g) 0.
Proof. exact whole_levels. Qed.
Print Assumptions C28_levels.

(** There is a rounding of heights to ticks that changes no comparison of
    UpdateBodySoil, if the other heights are multiples of four ticks. *)
Theorem C27_exact_ticks :
  forall t z a b d, (0 < t)%Z ->
  ((Z.abs (exact_ticks t z - 4 * a) < 4 * d)%Z <->
     Rabs (z - metres t (4 * a)) < metres t (4 * d)) /\
  ((Z.abs (exact_ticks t z - 4 * a) < Z.abs (exact_ticks t z - 4 * b))%Z <->
     Rabs (z - metres t (4 * a)) < Rabs (z - metres t (4 * b))).
Proof. exact exact_ticks_spec. Qed.
Print Assumptions C27_exact_ticks.
