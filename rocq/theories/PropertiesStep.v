(** Properties of Step (and of sequences of calls of Step). Statements only; the
    proofs are in the other files.

    Hypotheses used below, all defined in Spec2.v:
    - [grid_ok g]: the grid has an interior and its levels are the multiples of the
      cell height;
    - [params_ok g P]: 0 < tol < cell height / 2, the maximum slope is a non negative
      multiple of the cell height, the number of cells fits in an int;
    - [geom_ok g G legal near]: for the poses called [legal] the rasterised body is
      strictly inside the grid, and soil carried by the body stays inside it;
    - [state_ok g G legal near w]: what holds between two calls (Spec.v: consistent
      data, terrain and soil not crossing the body).
    [demo_…] (Demo.v) is a concrete grid, body, state and call that meet them. *)
From Coq Require Import ZArith List Bool Permutation.
From Verif Require Import Outcome Num State Base Spec ModelRelax ModelIntersect
  ModelBodySoil ModelBodyPos ModelUtils ModelStep Spec2 StepProofs CheckProofs StructProofs
  AvalancheProofs AreaProofs InitProofs RunProofs PropLemmas Demo DemoFacts.
Import ListNotations.
Open Scope Z_scope.

(** ** C01 *)
Theorem C01_step_conserves_soil :
  forall (upm : units) (g : grid_t (ZNum upm)) (G : geom (ZNum upm)) legal near P fuel p w w' b,
  grid_ok g -> params_ok g P -> geom_ok g G legal near ->
  state_ok g G legal near w -> legal p ->
  step G g P fuel p w = Ok (w', b) ->
  exists new, wlog (fst w') = wlog (fst w) ++ new /\
    total_soil (fst w') <= total_soil (fst w) /\
    (total_soil (fst w') = total_soil (fst w) <-> ~ In WRemoved new).
Proof. exact @step_balanced. Qed.
Print Assumptions C01_step_conserves_soil.

Theorem C01_run_conserves_soil :
  forall (upm : units) (g : grid_t (ZNum upm)) (G : geom (ZNum upm)) legal near P fuel ps w w',
  grid_ok g -> params_ok g P -> geom_ok g G legal near ->
  state_ok g G legal near w -> Forall legal ps ->
  run G g P fuel ps w = Ok w' ->
  exists new, wlog (fst w') = wlog (fst w) ++ new /\
    total_soil (fst w') <= total_soil (fst w) /\
    (total_soil (fst w') = total_soil (fst w) <-> ~ In WRemoved new).
Proof. exact @run_balanced. Qed.
Print Assumptions C01_run_conserves_soil.

(** The hypotheses are met by a call that moves soil of the terrain, of the body and
    of the records; and by one during which soil is removed. *)
Example C01_example :
  grid_ok demo_grid /\ params_ok demo_grid demo_params /\
  geom_ok demo_grid demo_geom demo_legal demo_near /\
  state_ok demo_grid demo_geom demo_legal demo_near demo_mid /\ demo_legal 1 /\
  demo_step = Ok demo_stepped.
Proof. exact demo_hypotheses. Qed.

Example C01_example_removed :
  params_ok demo_grid box_params /\ geom_ok demo_grid box_geom (fun _ => True) demo_near /\
  state_ok demo_grid box_geom (fun _ => True) demo_near box_start /\
  exists w', run (A := N) box_geom demo_grid box_params demo_fuel [0; 1] box_start = Ok w' /\
    In WRemoved (wlog (fst w')) /\ total_soil (fst w') < total_soil (fst box_start).
Proof. exact box_hypotheses. Qed.

(** ** C02 *)
Theorem C02_check_volume_stays_true :
  forall (upm : units) (g : grid_t (ZNum upm)) (G : geom (ZNum upm)) legal near P,
  grid_ok g -> params_ok g P -> geom_ok g G legal near ->
  forall ps fuel (w w' : world G) v s1,
  state_ok g G legal near w -> Forall legal ps ->
  check_volume (A := ZNum upm) (p_tol P) (cell_z g) v (fst w) = Ok (s1, true) ->
  run G g P fuel ps w = Ok w' ->
  (forall new, wlog (fst w') = wlog (fst w) ++ new -> ~ In WRemoved new) ->
  (* the int counters of CheckVolume do not overflow *)
  abs_volume (cell_z g) (fst w') <= 2147483647 ->
  check_volume (A := ZNum upm) (p_tol P) (cell_z g) v (fst w') = Ok (fst w', true).
Proof. exact @run_check_volume. Qed.
Print Assumptions C02_check_volume_stays_true.

Example C02_example : exists w',
  state_ok demo_grid demo_geom demo_legal demo_near demo_start /\
  Forall demo_legal [0; 1] /\
  check_volume (A := N) (p_tol demo_params) (cell_z demo_grid) 63 (fst demo_start) =
    Ok (fst demo_start, true) /\
  demo_run [0; 1] = Ok w' /\ wlog (fst w') = wlog (fst demo_start) /\
  abs_volume (cell_z demo_grid) (fst w') <= 2147483647.
Proof. exact demo_volume. Qed.

(** ** C03 *)
Theorem C03_check_soil_true_after_step :
  forall (upm : units) (g : grid_t (ZNum upm)) (G : geom (ZNum upm)) legal near P fuel p w w' b,
  grid_ok g -> params_ok g P -> geom_ok g G legal near ->
  state_ok g G legal near w -> legal p ->
  step G g P fuel p w = Ok (w', b) ->
  check_soil (A := ZNum upm) (p_tol P) (fst w') = Ok (fst w', true).
Proof. exact @step_check_soil. Qed.
Print Assumptions C03_check_soil_true_after_step.
(** See [C01_example]. *)

(** ** C04 *)
Theorem C04_no_update_when_still :
  forall (A : Num) (G : geom A) (g : grid_t A) P fuel p s old,
  g_moved G old p = (false, false) -> step G g P fuel p (s, old) = Ok ((s, old), false).
Proof. exact @step_still. Qed.
Print Assumptions C04_no_update_when_still.

Theorem C04_result_is_movement :
  forall (A : Num) (G : geom A) (g : grid_t A) P fuel p s old w' b,
  step G g P fuel p (s, old) = Ok (w', b) ->
  b = fst (g_moved G old p) /\ snd w' = if b then p else old.
Proof. exact @step_result. Qed.
Print Assumptions C04_result_is_movement.

Example C04_example :
  g_moved demo_geom 0 0 = (false, false) /\ fst (g_moved demo_geom 0 1) = true.
Proof. split; reflexivity. Qed.

(** ** C05 *)
Theorem C05_small_moves_accumulate :
  forall (A : Num) (G : geom A) (g : grid_t A) P fuel ps p s old,
  (forall q, In q ps -> g_moved G old q = (false, false)) ->
  run G g P fuel ps (s, old) = Ok (s, old) /\
  run G g P fuel (ps ++ [p]) (s, old) =
    bind (step G g P fuel p (s, old)) (fun r => Ok (fst r)).
Proof. exact @run_accumulates. Qed.
Print Assumptions C05_small_moves_accumulate.

(** A body that has to move by 3 from the pose of the last update. *)
Example C05_example :
  let G := @mkGeom N Z (fun old new => (2 <? Z.abs (new - old), false))
             (g_frame demo_geom) (g_raster demo_geom) (g_reloc demo_geom) in
  (forall q, In q [1; 2; 1] -> g_moved G 0 q = (false, false)) /\ fst (g_moved G 0 3) = true.
Proof. split; [intros q [<-|[<-|[<-|[]]]]; reflexivity|reflexivity]. Qed.

(** ** C06 *)
Theorem C06_no_undefined_behaviour :
  forall (upm : units) (g : grid_t (ZNum upm)) (G : geom (ZNum upm)) legal near P fuel p w,
  grid_ok g -> params_ok g P -> geom_ok g G legal near ->
  state_ok g G legal near w -> legal p ->
  forall u, step G g P fuel p w <> UB u.
Proof. exact @step_defined. Qed.
Print Assumptions C06_no_undefined_behaviour.

Theorem C06_run_no_undefined_behaviour :
  forall (upm : units) (g : grid_t (ZNum upm)) (G : geom (ZNum upm)) legal near P fuel ps w,
  grid_ok g -> params_ok g P -> geom_ok g G legal near ->
  state_ok g G legal near w -> Forall legal ps ->
  forall u, run G g P fuel ps w <> UB u.
Proof. exact @run_defined. Qed.
Print Assumptions C06_run_no_undefined_behaviour.
(** See [C01_example]. *)

(** ** C07 *)
Theorem C07_step_terminates :
  forall (upm : units) (g : grid_t (ZNum upm)) (G : geom (ZNum upm)) legal near P fuel p s old,
  grid_ok g -> params_ok g P -> geom_ok g G legal near ->
  state_ok g G legal near (s, old) -> legal p ->
  (* a bound on the number of iterations of each loop *)
  let side := Z.to_nat (nx s + ny s) in
  (side <= fuel)%nat -> (length (records s) * (1 + 8 * side) <= fuel)%nat ->
  exists w' b, step G g P fuel p (s, old) = Ok (w', b).
Proof. exact @step_terminates. Qed.
Print Assumptions C07_step_terminates.

Theorem C07_run_terminates :
  forall (upm : units) (g : grid_t (ZNum upm)) (G : geom (ZNum upm)) legal near P,
  grid_ok g -> params_ok g P -> geom_ok g G legal near ->
  forall ps (w : world G),
  state_ok g G legal near w -> Forall legal ps ->
  exists w', (exists N, forall fuel, (N <= fuel)%nat -> run G g P fuel ps w = Ok w') /\
    state_ok g G legal near w' /\ balanced (fst w) (fst w').
Proof. exact @run_total. Qed.
Print Assumptions C07_run_terminates.
(** See [C01_example]. *)

(** ** C08 *)
Theorem C08_rounds_are_bounded :
  forall (A : Num) (G : geom A) (g : grid_t A) P fuel p s old w',
  step G g P fuel p (s, old) = Ok (w', true) ->
  exists s1 k, equilibrium s1 = false /\ (k <= p_max_iterations P)%nat /\
    rounds G g P p k s1 (fst w') /\
    (k = p_max_iterations P \/ equilibrium (fst w') = true).
Proof. exact @step_moved. Qed.
Print Assumptions C08_rounds_are_bounded.

Theorem C08_loop_is_rounds :
  forall (A : Num) (G : geom A) (g : grid_t A) P p n s s',
  relax_loop G g P p n s = Ok s' <->
  exists k, (k <= n)%nat /\ rounds G g P p k s s' /\ (k = n \/ equilibrium s' = true).
Proof. exact @relax_loop_rounds. Qed.
Print Assumptions C08_loop_is_rounds.

Example C08_example : demo_step = Ok demo_stepped /\ snd demo_stepped = true.
Proof. exact demo_updates. Qed.

(** ** C09, for Step: nothing can fall any more *)
Theorem C09_step_equilibrium :
  forall (upm : units) (G : geom (ZNum upm)) (g : grid_t (ZNum upm)) P fuel p (w w' : world G),
  step (A := ZNum upm) G g P fuel p w = Ok (w', true) ->
  equilibrium (fst w') = true -> at_rest P (fst w').
Proof. exact @step_rest. Qed.
Print Assumptions C09_step_equilibrium.

Theorem C09_round_equilibrium :
  forall (upm : units) (G : geom (ZNum upm)) (g : grid_t (ZNum upm)) P p s s',
  relax_round (A := ZNum upm) G g P p s = Ok s' -> equilibrium s' = true ->
  at_rest P s' /\
  terrain s' = terrain s /\ body s' = body s /\ body_soil s' = body_soil s /\
  Permutation (records s') (records s).
Proof. exact @relax_round_rest. Qed.
Print Assumptions C09_round_equilibrium.

Example C09_example :
  demo_step = Ok demo_stepped /\ snd demo_stepped = true /\
  equilibrium (fst (fst demo_stepped)) = true.
Proof. exact demo_equilibrium. Qed.

(** ** C11 to C14 *)
(** After MoveIntersectingCells ([s1]) and after any number of rounds ([s2]). *)
Theorem C11_terrain_below_body :
  forall (upm : units) (g : grid_t (ZNum upm)) (G : geom (ZNum upm)) P fuel p n s s1 s2,
  params_ok g P -> placed g s ->
  move_intersecting_cells (g_frame G p) (p_tol P) fuel s = Ok s1 ->
  relax_loop G g P p n (set_equilibrium s1 false) = Ok s2 ->
  terrain_below s1 /\ terrain_below s2.
Proof. exact @phases_terrain_below. Qed.
Print Assumptions C11_terrain_below_body.

Theorem C12_lower_soil_below_upper_layer :
  forall (upm : units) (g : grid_t (ZNum upm)) (G : geom (ZNum upm)) P fuel p n s s1 s2,
  params_ok g P -> placed g s ->
  move_intersecting_cells (g_frame G p) (p_tol P) fuel s = Ok s1 ->
  relax_loop G g P p n (set_equilibrium s1 false) = Ok s2 ->
  soil_below s1 /\ soil_below s2.
Proof. exact @phases_soil_below. Qed.
Print Assumptions C12_lower_soil_below_upper_layer.

(** The phases of one call of Step, from the state between two calls. *)
Theorem C13_records_match_soil :
  forall (upm : units) (g : grid_t (ZNum upm)) (G : geom (ZNum upm)) legal near P fuel p w w' b,
  grid_ok g -> params_ok g P -> geom_ok g G legal near ->
  state_ok g G legal near w -> legal p ->
  step G g P fuel p w = Ok (w', b) ->
  (forall i j k, on_grid (fst w') i j -> layer k ->
     soil_height (fst w') k i j = recorded (records (fst w')) k i j /\
     (soil_on (fst w') k i j -> listed (records (fst w')) k i j)) /\
  (forall e, In e (records (fst w')) ->
     0 <= (e_h e : Z) /\ aligned (cell_z g) (e_h e) /\ layer (e_ind e) /\
     inside (fst w') (e_i e) (e_j e)).
Proof. exact @step_records. Qed.
Print Assumptions C13_records_match_soil.

Theorem C13_phases_records_match_soil :
  forall (upm : units) (g : grid_t (ZNum upm)) (G : geom (ZNum upm)) P fuel p n s s1 s2,
  params_ok g P -> placed g s ->
  move_intersecting_cells (g_frame G p) (p_tol P) fuel s = Ok s1 ->
  relax_loop G g P p n (set_equilibrium s1 false) = Ok s2 ->
  forall s', s' = s1 \/ s' = s2 ->
  forall i j k, on_grid s' i j -> layer k ->
    soil_height s' k i j = recorded (records s') k i j /\
    (soil_on s' k i j -> listed (records s') k i j).
Proof. exact @phases_records. Qed.
Print Assumptions C13_phases_records_match_soil.

Theorem C14_soil_rests_on_body :
  forall (upm : units) (g : grid_t (ZNum upm)) (G : geom (ZNum upm)) legal near P fuel ps w w',
  grid_ok g -> params_ok g P -> geom_ok g G legal near ->
  state_ok g G legal near w -> Forall legal ps ->
  run G g P fuel ps w = Ok w' ->
  forall i j k, on_grid (fst w') i j -> layer k -> soil_on (fst w') k i j ->
    body_at (fst w') k i j /\ body_soil (fst w') k i j = body (fst w') (k + 1) i j /\
    (body_soil (fst w') k i j : Z) <= body_soil (fst w') (k + 1) i j.
Proof. exact @run_soil_rests. Qed.
Print Assumptions C14_soil_rests_on_body.

(** A state before MoveIntersectingCells where terrain has to move, and soil of the
    lower layer; and the rounds after it. *)
Example C11_example : exists s1 s2,
  placed demo_grid crossing /\
  ~ terrain_below crossing /\ ~ soil_below crossing /\
  move_intersecting_cells (A := N) (g_frame demo_geom 0) (p_tol demo_params) 300 crossing = Ok s1 /\
  relax_loop (A := N) demo_geom demo_grid demo_params 0 5 (set_equilibrium s1 false) = Ok s2.
Proof. exact crossing_runs. Qed.

Example C14_example : exists w', demo_run [0; 1] = Ok w' /\ soil_on (fst w') 0 6 4.
Proof. exact demo_carries. Qed.

(** ** C22 *)
Theorem C22_areas_in_margin :
  forall (A : Num) (G : geom A) (g : grid_t A) P fuel ps,
  (forall p a walls, g_raster G p = Ok (a, walls) -> in_margin g a) ->
  forall w, areas_ok g (fst w) ->
  partial (run G g P fuel ps w) (fun w' => areas_ok g (fst w')).
Proof. exact @run_areas. Qed.
Print Assumptions C22_areas_in_margin.

Theorem C22_new_areas_in_margin :
  forall (A : Num) (g : grid_t A) r l, areas_ok g (new_sim g r l).
Proof. exact @new_sim_areas. Qed.
Print Assumptions C22_new_areas_in_margin.

(** The area scanned by a round of the relaxation is the smallest one that contains
    the area of the body and that of the terrain relaxed last. *)
Theorem C22_impact_area :
  forall (A : Num) (G : geom A) (g : grid_t A) P p s,
  partial (relax_round G g P p s) (fun s' =>
    let a := impact_area s' in let b := body_area s in let r := relax_area s in
    x_lo a = Z.min (x_lo b) (x_lo r) /\ x_hi a = Z.max (x_hi b) (x_hi r) /\
    y_lo a = Z.min (y_lo b) (y_lo r) /\ y_hi a = Z.max (y_hi b) (y_hi r)).
Proof. exact @relax_round_impact. Qed.
Print Assumptions C22_impact_area.

(** ** C32 *)
Theorem C32_new_simout :
  forall (upm : units) (g : grid_t (ZNum upm)) (G : geom (ZNum upm)) legal near r l old,
  grid_ok g ->
  let s := new_sim (A := ZNum upm) g r l in
  nx s = 2 * half_x g + 1 /\ ny s = 2 * half_y g + 1 /\ equilibrium s = false /\
  (forall i j, (terrain s i j : Z) = 0) /\
  (forall k i j, (body s k i j : Z) = 0 /\ (body_soil s k i j : Z) = 0) /\
  records s = [] /\ state_ok g G legal near (s, old).
Proof. exact @new_simout. Qed.
Print Assumptions C32_new_simout.

Example C32_example : grid_ok demo_grid.
Proof. exact demo_grid_ok. Qed.
