(** At equilibrium nothing can avalanche, in the whole grid and not only in the area
    scanned by the last round. Statements only; the proofs are in RestProofs.v
    and RestLater.v.

    [interior g i j] is [2 <= i < 2 * half_x] and [2 <= j < 2 * half_y]; [rests P s i j]
    says that the terrain of the cell avalanches onto none of its four neighbours
    ([terrain_falls], Spec.v). *)
From Coq Require Import Reals ZArith List Bool.
From Verif Require Import Outcome Num State Base Spec Spec2 ModelRelax ModelIntersect
  ModelBodySoil ModelBodyPos ModelUtils ModelStep Flt FltR ModelTypes ModelGeometry ModelRaster
  ModelWhole RelaxBase StepProofs RunProofs PairProofs SpecGeo TypesProofs GeoClaims WholeProofs WholeClaims
  RestProofs RestFacts RestLater RestJump RestWhole Demo.
Import ListNotations.
Open Scope Z_scope.

(** ** C49 *)
(** The loop of Step: when only cells of the two areas can avalanche before it, none
    can after it. *)
Theorem C49_relaxation :
  forall (upm : units) (G : geom (ZNum upm)) g P near p n s s',
  params_ok g P -> 3 <= p_cell_buffer P -> loop_ok g G near p s ->
  surrounded g s -> rest_outside g P s -> equilibrium s = false ->
  relax_loop (A := ZNum upm) G g P p n s = Ok s' -> equilibrium s' = true ->
  forall i j, interior g i j -> rests P s' i j.
Proof.
  intros upm G g P near p n s s' HP Hb L Hs Ho E R Q.
  exact (relax_loop_rests G g P near HP p n Hb s s' L Hs Ho E R Q).
Qed.
Print Assumptions C49_relaxation.

(** The first call of Step, when the area to relax is the one of a new SimOut. *)
Theorem C49_step :
  forall (upm : units) (G : geom (ZNum upm)) g P legal near fuel p w w',
  grid_ok g -> params_ok g P -> geom_ok g G legal near -> roomy G g legal ->
  3 <= p_cell_buffer P -> state_ok g G legal near w -> legal p ->
  (forall i j, interior g i j -> in_area (relax_area (fst w)) i j) ->
  step (A := ZNum upm) G g P fuel p w = Ok (w', true) -> equilibrium (fst w') = true ->
  forall i j, interior g i j -> rests P (fst w') i j.
Proof.
  intros upm G g P legal near fuel p w w' Hg HP HG Hr Hb Hw Hp Ha E Q.
  exact (step_rests G g P near HP legal fuel p w w' Hg HG Hr Hb Hw Hp Ha E Q).
Qed.
Print Assumptions C49_step.

(** The same from the constructors and Init, with the geometry of the code. *)
Theorem C49_whole :
  forall k t to_ticks g cz prm b P r lines p, mission k t g cz prm b P r lines [p] ->
  4 <= cell_buffer prm ->
  forall noise rg l fuel w',
  wrun k t to_ticks g cz b P lines fuel [p]
    (init (A := ZNum (wunits t)) (wgrid t g cz) noise (new_sim (wgrid t g cz) rg l)) = Ok w' ->
  equilibrium (fst w') = true ->
  forall i j, interior (wgrid t g cz) i j -> rests P (fst w') i j.
Proof.
  intros k t to_ticks g cz prm b P r lines p M B noise rg l fuel w' E Q.
  exact (mission_first_rests k t to_ticks g cz prm b P r lines p M noise rg l fuel w' B E Q).
Qed.
Print Assumptions C49_whole.

(** Without body, and with a repose angle that allows a step of one cell, the loop ends
    with all the interior at rest and the same amount of soil. *)
Theorem C49_bare :
  forall (upm : units) (G : geom (ZNum upm)) g P p s,
  params_ok g P -> (cell_z g : Z) <= p_dh_max P -> 3 <= p_cell_buffer P ->
  bare g s -> sized g s -> within_grid g (body_area s) -> within_grid g (relax_area s) ->
  rest_outside g P s -> equilibrium s = false ->
  forall n, (Z.to_nat (squares s) < n)%nat ->
  exists s', relax_loop (A := ZNum upm) G g P p n s = Ok s' /\ equilibrium s' = true /\
    total_soil s' = total_soil s /\ forall i j, interior g i j -> rests P s' i j.
Proof.
  intros upm G g P p s HP Hc Hb B Hs W1 W2 Ho E n Hn.
  exact (bare_rests G g P HP p Hc Hb s B Hs W1 W2 Ho E n Hn).
Qed.
Print Assumptions C49_bare.

(** It fails for the cells of index 1: relax.cpp:129-136 starts the next area at 2,
    hence soil that came to such a cell is not looked at again. *)
Theorem C49_first_row_refuted :
  exists (G : geom N) g P legal near fuel p w w',
  grid_ok g /\ params_ok g P /\ geom_ok g G legal near /\ roomy G g legal /\
  3 <= p_cell_buffer P /\ state_ok g G legal near w /\ legal p /\
  (forall i j, interior g i j -> in_area (relax_area (fst w)) i j) /\
  step (A := N) G g P fuel p w = Ok (w', true) /\ equilibrium (fst w') = true /\
  exists i j, inside (fst w') i j /\ ~ rests P (fst w') i j.
Proof.
  destruct first_row as (w' & E & Q & Hin & R).
  exists post_geom, demo_grid, post_params, any_pose, everywhere, 300%nat, true, post_start, w'.
  split; [exact demo_grid_ok|]. split; [exact post_params_ok|]. split; [exact post_geom_ok|].
  split; [exact post_roomy|]. split; [apply Z.le_refl|]. split; [exact post_start_ok|].
  split; [exact I|]. split; [exact post_covers|]. split; [exact E|]. split; [exact Q|].
  exists 1, 7. split; assumption.
Qed.
Print Assumptions C49_first_row_refuted.

(** The hypotheses of [C49_step] and of [C49_relaxation] are those met above; soil moves
    in this run: the hill of height 400 in cell (3, 7) goes down to 20. *)
Example C49_example : exists w',
  step (A := N) post_geom demo_grid post_params 300 true post_start = Ok (w', true) /\
  equilibrium (fst w') = true /\ (terrain (fst post_start) 3 7 : Z) = 400 /\
  (terrain (fst w') 3 7 : Z) = 20.
Proof.
  destruct post_run as (w' & E & Q & T & _). exists w'.
  split; [exact E|]. split; [exact Q|]. split; [reflexivity|exact T].
Qed.

(** The mission of [C01_whole_example], with one pose. *)
Example C49_whole_example : forall k,
  mission k mission_t demo_g mission_cz mission_prm mission_b mission_P 1%R 250
    (firstn 1 mission_ps) /\ 4 <= cell_buffer mission_prm.
Proof.
  intros k. destruct (demo_mission k) as (A & B & C & D). split.
  - split; [exact A|]. split; [exact B|]. split; [exact C|].
    inversion D; subst. constructor; [assumption|constructor].
  - cbn. discriminate.
Qed.

(** Any number of calls of Step from a new SimOut: whenever an equilibrium is reported,
    nothing of the interior can avalanche. Before each call, either an equilibrium was
    reported or the area computed at the new pose contains the body as it was and the two
    cells around ([watched]); and UpdateBodySoil did not give soil of the body to the terrain
    ([kept], the warning of body_soil.cpp:207). *)
Theorem C49_run :
  forall (upm : units) (G : geom (ZNum upm)) g P legal near fuel ps w w',
  grid_ok g -> params_ok g P -> geom_ok g G legal near -> wide G g legal ->
  3 <= p_cell_buffer P -> p_max_iterations P <> 0%nat ->
  state_ok g G legal near w -> Forall legal ps ->
  (forall i j, interior g i j -> in_area (relax_area (fst w)) i j) -> equilibrium (fst w) = false ->
  watched G g P fuel ps w ->
  run (A := ZNum upm) G g P fuel ps w = Ok w' -> kept (fst w) (fst w') ->
  equilibrium (fst w') = true ->
  forall i j, interior g i j -> rests P (fst w') i j.
Proof.
  intros upm G g P legal near fuel ps w w' Hg HP HG Hr Hb Hn Hw Hps Ha E0 Wt E K.
  exact (start_settles G g P legal near Hg HP HG Hb fuel ps w w' Hr Hn Hw Hps Ha E0 Wt E K).
Qed.
Print Assumptions C49_run.

(** The same from the constructors and Init, with the geometry of the code. *)
Theorem C49_whole_run :
  forall k t to_ticks g cz prm b P r lines ps, mission k t g cz prm b P r lines ps ->
  4 <= cell_buffer prm -> 1 <= max_iterations prm ->
  forall noise rg l fuel w',
  let s0 := init (A := ZNum (wunits t)) (wgrid t g cz) noise (new_sim (wgrid t g cz) rg l) in
  watched (wgeom k t to_ticks g b P lines) (wgrid t g cz) P fuel (map Some ps) (s0, None) ->
  wrun k t to_ticks g cz b P lines fuel ps s0 = Ok w' -> kept s0 (fst w') ->
  equilibrium (fst w') = true ->
  forall i j, interior (wgrid t g cz) i j -> rests P (fst w') i j.
Proof.
  intros k t to_ticks g cz prm b P r lines ps M B N noise rg l fuel w'.
  exact (mission_run_settles k t to_ticks g cz prm b P r lines ps M noise rg l fuel w' B N).
Qed.
Print Assumptions C49_whole_run.

(** It fails when the body is moved far before the relaxation is over: the last round sent
    soil from the body to the terrain next to it, then neither area contains that cell, and
    the next equilibrium is reported with this soil ready to avalanche. *)
Theorem C49_unsettled_jump_refuted :
  exists (G : geom N) g P legal near fuel ps w w',
  grid_ok g /\ params_ok g P /\ geom_ok g G legal near /\ wide G g legal /\
  3 <= p_cell_buffer P /\ p_max_iterations P <> 0%nat /\
  state_ok g G legal near w /\ Forall legal ps /\
  (forall i j, interior g i j -> in_area (relax_area (fst w)) i j) /\ equilibrium (fst w) = false /\
  run (A := N) G g P fuel ps w = Ok w' /\ wlog (fst w') = [] /\
  equilibrium (fst w') = true /\
  exists i j, interior g i j /\ ~ rests P (fst w') i j.
Proof.
  destruct jump_leaves as (w' & E & Q & L & Hi & R).
  exists jump_geom, jump_grid, (jump_params 1), jump_legal, everywhere, 300%nat, jump_poses, jump_start, w'.
  split; [exact jump_grid_ok|]. split; [exact (jump_params_ok 1)|]. split; [exact jump_geom_ok|].
  split; [exact jump_wide|]. split; [apply Z.le_refl|]. split; [discriminate|].
  split; [exact jump_start_ok|]. split; [exact jump_legal_poses|]. split; [exact jump_covers|].
  split; [reflexivity|]. split; [exact E|]. split; [exact L|]. split; [exact Q|].
  exists 15, 5. split; assumption.
Qed.
Print Assumptions C49_unsettled_jump_refuted.

(** Three calls in the same world with 100 rounds allowed, where [watched] holds: the hole
    dug by the body in cell (5, 4) is filled up to 40, and soil was left in cell (15, 4). *)
Example C49_run_example :
  watched (upm := zunits 100) jump_geom jump_grid (jump_params 100) 300 calm_poses jump_start /\
  Forall jump_legal calm_poses /\
  exists w', run (A := N) jump_geom jump_grid (jump_params 100) 300 calm_poses jump_start = Ok w' /\
  kept (upm := zunits 100) (fst jump_start) (fst w') /\ equilibrium (fst w') = true /\
  (terrain (fst jump_start) 5 4 : Z) = 0 /\ (terrain (fst w') 5 4 : Z) = 40 /\
  (terrain (fst w') 15 4 : Z) = 10.
Proof.
  split; [exact calm_watched|]. split; [exact calm_legal_poses|].
  destruct calm_run as (w' & E & Q & L & T). exists w'. split; [exact E|].
  split; [|split; [exact Q|exact T]].
  intros new Ln Hin. rewrite L in Ln. destruct new; [destruct Hin|].
  destruct (wlog (fst jump_start)); discriminate Ln.
Qed.

(** The mission of [C01_whole_example] with one pose; nothing was moved before it. *)
Example C49_whole_run_example : forall k to_ticks noise rg fuel,
  mission k mission_t demo_g mission_cz mission_prm mission_b mission_P 1%R 250 (firstn 1 mission_ps) /\
  4 <= cell_buffer mission_prm /\ 1 <= max_iterations mission_prm /\
  watched (wgeom k mission_t to_ticks demo_g mission_b mission_P 250) (wgrid mission_t demo_g mission_cz)
    mission_P fuel (map Some (firstn 1 mission_ps))
    (init (A := ZNum (wunits mission_t)) (wgrid mission_t demo_g mission_cz) noise
       (new_sim (wgrid mission_t demo_g mission_cz) rg []), None).
Proof.
  intros k to_ticks noise rg fuel. destruct (C49_whole_example k) as [A B].
  split; [exact A|]. split; [exact B|]. split; [cbn; discriminate|].
  intros ps1 p ps2 w1 E R. right. destruct ps1 as [|p1 ps1].
  - cbn [run] in R. injection R as <-. apply start_overlaps.
  - exfalso. destruct ps1; discriminate.
Qed.
