(** Properties of long runs: how deep and how high the soil can go, and what the Checks of the example
    program answer (ModelCheckLoop.v). Statements only; the proofs are in FloorProofs.v,
    HeightProofs.v, CheckLoopProofs.v and CheckLoopClaims.v.

    The hypotheses on the grid, parameters, geometry and state are those of
    PropertiesStep.v; [mission] is explained in PropertiesWhole.v. *)
From Coq Require Import Reals ZArith List Bool Lia Lra.
From Verif Require Import Outcome Num Base Flt FltR State Spec Spec2
  ModelTypes ModelGeometry ModelBodySoil ModelBodyPos ModelUtils ModelStep ModelRaster ModelWhole
  ModelExample ModelCheckLoop SpecGeo PoseProofs TypesProofs InsideProofs GeoClaims CheckProofs WholeProofs
  WholeClaims ExampleProofs ExampleLoop ExampleRun Demo DemoFacts CheckLoopProofs CheckLoopClaims
  HeightProofs.
Import ListNotations.
Open Scope Z_scope.

(** ** C56 *)
(** The terrain stays above any level that is below the initial terrain and the grid. *)
Theorem C56_run :
  forall (upm : units) (g : grid_t (ZNum upm)) (G : geom (ZNum upm)) legal near P low fuel ps w w',
  grid_ok g -> params_ok g P -> geom_ok g G legal near -> 0 <= half_z g ->
  state_ok g G legal near w -> Forall legal ps ->
  low <= - ((cell_z g : Z) * half_z g) ->
  (forall i j, on_grid (fst w) i j -> low <= (terrain (fst w) i j : Z)) ->
  run G g P fuel ps w = Ok w' ->
  forall i j, on_grid (fst w') i j -> low <= (terrain (fst w') i j : Z).
Proof. exact @run_low. Qed.
Print Assumptions C56_run.

(** The terrain does go below its initial level: here from 50 to 0. *)
Example C56_run_example : exists w',
  grid_ok demo_grid /\ params_ok demo_grid box_params /\
  geom_ok demo_grid box_geom (fun _ => True) demo_near /\
  state_ok demo_grid box_geom (fun _ => True) demo_near box_start /\
  -60 <= - ((cell_z demo_grid : Z) * half_z demo_grid) /\
  (forall i j, on_grid (fst box_start) i j -> 50 <= (terrain (fst box_start) i j : Z)) /\
  run (A := N) box_geom demo_grid box_params demo_fuel [0; 1; 0] box_start = Ok w' /\
  on_grid (fst w') 4 4 /\ (terrain (fst w') 4 4 : Z) = 0.
Proof. exact box_low. Qed.

Theorem C56_whole :
  forall k t to_ticks g cz prm b P r lines ps, mission k t g cz prm b P r lines ps ->
  forall noise rg l low,
  let wg := wgrid t g cz in
  let start := init (A := ZNum (wunits t)) wg noise (new_sim wg rg l) in
  low <= - (cz * g_half_z g) ->
  (forall i j, on_grid start i j -> low <= (terrain start i j : Z)) ->
  forall fuel w', wrun k t to_ticks g cz b P lines fuel ps start = Ok w' ->
  forall i j, on_grid (fst w') i j -> low <= (terrain (fst w') i j : Z).
Proof. exact mission_low. Qed.
Print Assumptions C56_whole.

(** The default run of the example program, on a terrain 3 m below zero. *)
Example C56_whole_example : forall (o : R) lines, grid_fuel ex_g <= Z.of_nat lines ->
  exists ps, stepped (K := FltR) sin cos ex_g ex_b (ex_traj o) (Z.to_nat 5001) = Ok ps /\
  mission Bucket ex_t ex_g ex_cz ex_prm ex_b ex_P ex_r lines ps /\
  -4 * ex_t <= - (ex_cz * g_half_z ex_g) /\
  forall to_ticks rg l,
  let wg := wgrid ex_t ex_g ex_cz in
  let start := init (A := ZNum (wunits ex_t)) wg (fun _ _ _ => -3 * ex_t) (new_sim wg rg l) in
  (forall i j, on_grid start i j -> -4 * ex_t <= (terrain start i j : Z)) /\
  exists fuel w', wrun Bucket ex_t to_ticks ex_g ex_cz ex_b ex_P lines fuel ps start = Ok w'.
Proof. exact ex_low. Qed.

(** No column, terrain and soil on the body together, holds more above that level than all the
    soil that was above it at the start. *)
Theorem C56_above :
  forall (upm : units) (g : grid_t (ZNum upm)) (G : geom (ZNum upm)) legal near P low fuel ps w w',
  grid_ok g -> params_ok g P -> geom_ok g G legal near -> 0 <= half_z g ->
  state_ok g G legal near w -> Forall legal ps ->
  low <= - ((cell_z g : Z) * half_z g) ->
  (forall i j, on_grid (fst w) i j -> low <= (terrain (fst w) i j : Z)) ->
  run G g P fuel ps w = Ok w' ->
  forall i j, on_grid (fst w') i j ->
  0 <= soil_height (fst w') 0 i j /\ 0 <= soil_height (fst w') 2 i j /\
  soil_at (fst w') i j - low <= total_soil (fst w) - nx (fst w) * ny (fst w) * low.
Proof. exact @run_high. Qed.
Print Assumptions C56_above.

(** A column does go above the highest one of the start: here from 50 to 90. *)
Example C56_above_example : exists w',
  grid_ok demo_grid /\ params_ok demo_grid box_params /\
  geom_ok demo_grid box_geom (fun _ => True) demo_near /\
  state_ok demo_grid box_geom (fun _ => True) demo_near box_start /\
  -60 <= - ((cell_z demo_grid : Z) * half_z demo_grid) /\
  (forall i j, on_grid (fst box_start) i j -> -60 <= (terrain (fst box_start) i j : Z) <= 50) /\
  run (A := N) box_geom demo_grid box_params demo_fuel [0; 1] box_start = Ok w' /\
  on_grid (fst w') 6 6 /\ soil_at (fst w') 6 6 = 90.
Proof. exact box_high. Qed.

(** C56_whole_example is a case for this one too. *)
Theorem C56_above_whole :
  forall k t to_ticks g cz prm b P r lines ps, mission k t g cz prm b P r lines ps ->
  forall noise rg l low,
  let wg := wgrid t g cz in
  let start := init (A := ZNum (wunits t)) wg noise (new_sim wg rg l) in
  low <= - (cz * g_half_z g) ->
  (forall i j, on_grid start i j -> low <= (terrain start i j : Z)) ->
  forall fuel w', wrun k t to_ticks g cz b P lines fuel ps start = Ok w' ->
  forall i j, on_grid (fst w') i j ->
  0 <= soil_height (fst w') 0 i j /\ 0 <= soil_height (fst w') 2 i j /\
  soil_at (fst w') i j - low <= total_soil start - (2 * g_half_x g + 1) * (2 * g_half_y g + 1) * low.
Proof. exact mission_high. Qed.
Print Assumptions C56_above_whole.

(** ** C57 *)
(** Check on any state: its first answer says whether the records and the volume are right,
    its second whether the conventions hold where the body may be, and it does nothing but
    write one warning per answer false. *)
Theorem C57_check :
  forall (upm : units) (g : grid_t (ZNum upm)) (P : params (ZNum upm)), 0 < (cell_z g : Z) ->
  forall v s s' a b,
  records_in s -> (forall i j, in_area (body_area s) i j -> on_grid s i j) ->
  check g P v s = Ok (s', (a, b)) ->
  (a = true <-> agree (p_tol P) s /\ volume (cell_z g) s = v) /\
  (b = true <-> forall i j, in_area (body_area s) i j -> conventions (p_tol P) s i j) /\
  exists new, s' = fold_left warn new s /\
    length new = ((if a then 0 else 1) + (if b then 0 else 1))%nat.
Proof. exact @check_any. Qed.
Print Assumptions C57_check.
Example C57_check_example :
  records_in bad_state /\
  (forall i j, in_area (body_area bad_state) i j -> on_grid bad_state i j) /\
  exists s', check (A := N) demo_grid demo_params 63 bad_state = Ok (s', (false, false)).
Proof. exact bad_checked. Qed.

(** A Step and a Check per pose, from a state with [v] cells of soil: the loop ends, CheckSoil always answers true, CheckVolume answers
    true [m] times then false [n] times, and it never answers false if and only if no soil is
    announced as removed. The Checks then change nothing; otherwise each answer false of
    CheckVolume writes its warning. *)
Theorem C57_run :
  forall (upm : units) (g : grid_t (ZNum upm)) (G : geom (ZNum upm)) legal near P low v ps w,
  grid_ok g -> params_ok g P -> geom_ok g G legal near -> 0 <= half_z g ->
  state_ok g G legal near w -> Forall legal ps ->
  low <= - ((cell_z g : Z) * half_z g) ->
  (forall i j, on_grid (fst w) i j -> low <= (terrain (fst w) i j : Z)) ->
  (* the int counters of CheckVolume cannot overflow *)
  total_soil (fst w) - 2 * (nx (fst w) * ny (fst w) * low) <= (cell_z g : Z) * 2147483647 ->
  total_soil (fst w) = (cell_z g : Z) * v ->
  exists w' m n new N,
    (forall fuel, (N <= fuel)%nat -> checked_run G g P fuel v ps w =
       Ok (w', repeat (true, true) m ++ repeat (false, true) n)) /\
    (m + n)%nat = length ps /\ wlog (fst w') = wlog (fst w) ++ new /\
    (n = 0%nat <-> ~ In WRemoved new) /\
    (n <= count_occ warning_dec new WVolume)%nat /\
    (n = 0%nat -> forall fuel, (N <= fuel)%nat -> run G g P fuel ps w = Ok w').
Proof. exact @run_checks. Qed.
Print Assumptions C57_run.

(** Both cases: nothing lost, and soil lost in the second of three Steps. *)
Example C57_run_example :
  (total_soil (fst demo_start) = (cell_z demo_grid : Z) * 63 /\
   total_soil (fst demo_start) - 2 * (nx (fst demo_start) * ny (fst demo_start) * -60) <=
     (cell_z demo_grid : Z) * 2147483647 /\
   exists w', checked_run (A := N) demo_geom demo_grid demo_params demo_fuel 63 [0; 1] demo_start =
     Ok (w', [(true, true); (true, true)])) /\
  (total_soil (fst box_start) = (cell_z demo_grid : Z) * 405 /\
   total_soil (fst box_start) - 2 * (nx (fst box_start) * ny (fst box_start) * -60) <=
     (cell_z demo_grid : Z) * 2147483647 /\
   exists w', checked_run (A := N) box_geom demo_grid box_params demo_fuel 405 [0; 1; 0] box_start =
     Ok (w', [(true, true); (false, true); (false, true)])).
Proof. exact demo_checks. Qed.

(** The loop of the example program. *)
Theorem C57_whole :
  forall k t to_ticks g cz prm b P r lines ps, mission k t g cz prm b P r lines ps ->
  forall noise rg l H, cz * g_half_z g <= H ->
  let wg := wgrid t g cz in
  let start := init (A := ZNum (wunits t)) wg noise (new_sim wg rg l) in
  (forall i j, on_grid start i j -> - H <= (terrain start i j : Z) <= H) ->
  3 * ((2 * g_half_x g + 1) * (2 * g_half_y g + 1) * H) <= cz * 2147483647 ->
  exists v, init_volume wg start = Ok v /\ cz * v = total_soil start /\
  exists w' m n new N,
    (forall fuel, (N <= fuel)%nat ->
       checked_run (wgeom k t to_ticks g b P lines) wg P fuel v (map Some ps) (start, None) =
         Ok (w', repeat (true, true) m ++ repeat (false, true) n)) /\
    (m + n)%nat = length ps /\ wlog (fst w') = wlog start ++ new /\
    (n = 0%nat <-> ~ In WRemoved new) /\
    (n <= count_occ warning_dec new WVolume)%nat /\
    (n = 0%nat -> forall fuel, (N <= fuel)%nat ->
       wrun k t to_ticks g cz b P lines fuel ps start = Ok w').
Proof. exact mission_checks. Qed.
Print Assumptions C57_whole.

(** Its default run, on a terrain between -100 m and 100 m. *)
Theorem C57_default :
  forall o lines, grid_fuel ex_g <= Z.of_nat lines ->
  exists ps, stepped (K := FltR) sin cos ex_g ex_b (ex_traj o) (Z.to_nat 5001) = Ok ps /\
  forall to_ticks noise rg l, (forall table i j, Z.abs (noise table i j) <= 100 * ex_t) ->
  let wg := wgrid ex_t ex_g ex_cz in
  let start := init (A := ZNum (wunits ex_t)) wg noise (new_sim wg rg l) in
  exists v, init_volume wg start = Ok v /\ ex_cz * v = total_soil start /\
  exists w' m n new N,
    (forall fuel, (N <= fuel)%nat ->
       checked_run (wgeom Bucket ex_t to_ticks ex_g ex_b ex_P lines) wg ex_P fuel v (map Some ps)
         (start, None) = Ok (w', repeat (true, true) m ++ repeat (false, true) n)) /\
    (m + n)%nat = length ps /\ wlog (fst w') = wlog start ++ new /\
    (n = 0%nat <-> ~ In WRemoved new) /\
    (n <= count_occ warning_dec new WVolume)%nat /\
    (n = 0%nat -> forall fuel, (N <= fuel)%nat ->
       wrun Bucket ex_t to_ticks ex_g ex_cz ex_b ex_P lines fuel ps start = Ok w').
Proof. exact ex_checked. Qed.
Print Assumptions C57_default.
