(** The body in the grid is the body at the stored pose, and it stops the terrain below its
    walls. Statements only; the proofs are in ShownProofs.v and ShownWhole.v. *)
From Coq Require Import Reals ZArith List Bool.
From Verif Require Import Outcome Num Base Flt FltR State Spec Spec2
  ModelTypes ModelGeometry ModelBodySoil ModelBodyPos ModelUtils ModelStep ModelRaster ModelWhole
  SpecGeo PoseProofs TypesProofs LineCells RasterProofs InsideProofs GeoClaims WholeProofs WholeClaims
  SpecHole HoleDemo SpecShown ShownProofs ShownWhole.
Import ListNotations.
Open Scope R_scope.

(** ** C53 *)
(** A call of Step that moved the body: nothing of the former poses is left, nothing is missing. *)
Theorem C53_step :
  forall (upm : units) (g : grid_t (ZNum upm)) (G : geom (ZNum upm)) legal near P fuel p (w w' : world G),
  grid_ok g -> params_ok g P -> geom_ok g G legal near -> state_ok g G legal near w -> legal p ->
  step (A := ZNum upm) G g P fuel p w = Ok (w', true) ->
  snd w' = p /\ exists a walls, g_raster G p = Ok (a, walls) /\ body_area (fst w') = a /\ shows g walls (fst w').
Proof.
  intros upm g G legal near P fuel p w w' Hg HP HG Hw Hp E.
  destruct (step_shows g G legal near P Hg HP HG fuel p w w' Hw Hp E) as [<- U]. split; [reflexivity|exact U].
Qed.
Print Assumptions C53_step.
(** The hypotheses are those of C01: see [C01_example] in PropertiesStep.v. *)

(** Any sequence of calls keeps it so. *)
Theorem C53_run :
  forall (upm : units) (g : grid_t (ZNum upm)) (G : geom (ZNum upm)) legal near P fuel ps (w w' : world G),
  grid_ok g -> params_ok g P -> geom_ok g G legal near -> state_ok g G legal near w -> Forall legal ps ->
  run (A := ZNum upm) G g P fuel ps w = Ok w' -> up_to_date g G w -> up_to_date g G w'.
Proof.
  intros upm g G legal near P fuel ps w w' Hg HP HG. exact (run_up_to_date g G legal near P Hg HP HG fuel ps w w').
Qed.
Print Assumptions C53_run.

(** The whole simulator, from the constructors and Init: the pose that is stored is one of the
    poses given, the later ones having all the corners less than half a cell away from it. *)
Theorem C53_whole :
  forall k t to_ticks g cz prm b P r lines ps, mission k t g cz prm b P r lines ps ->
  forall noise rg l fuel w',
  wrun k t to_ticks g cz b P lines fuel ps
    (init (A := ZNum (wunits t)) (wgrid t g cz) noise (new_sim (wgrid t g cz) rg l)) = Ok w' ->
  ps <> [] ->
  exists ps1 p ps2, ps = ps1 ++ p :: ps2 /\ snd w' = Some p /\ Forall (corners_still g b p) ps2 /\
    up_to_date (wgrid t g cz) (wgeom k t to_ticks g b P lines) w'.
Proof. exact mission_up_to_date. Qed.
Print Assumptions C53_whole.
Example C53_whole_example : forall k to_ticks noise rg l,
  mission k mission_t demo_g mission_cz mission_prm mission_b mission_P 1 250 hole_ps /\
  exists fuel w', wrun k mission_t to_ticks demo_g mission_cz mission_b mission_P 250 fuel hole_ps
    (init (A := ZNum (wunits mission_t)) (wgrid mission_t demo_g mission_cz) noise
       (new_sim (wgrid mission_t demo_g mission_cz) rg l)) = Ok w' /\ snd w' = Some (hole_pos, hole_ori).
Proof. intros k to_ticks noise rg l. split; [apply hole_mission|apply hole_run]. Qed.

(** The bucket: in every column in which one of its walls lies, [m] away from the sides of the
    column, there is body in the grid and the terrain is below it. *)
Theorem C53_bucket :
  forall t to_ticks g cz prm b P r lines ps noise rg l fuel w' m pos ori,
  snd w' = Some (pos, ori) -> m <= / 100 -> mission Bucket t g cz prm b P r lines ps ->
  wrun Bucket t to_ticks g cz b P lines fuel ps
    (init (A := ZNum (wunits t)) (wgrid t g cz) noise (new_sim (wgrid t g cz) rg l)) = Ok w' ->
  let tol := metres t (p_tol P) in
  1 / 10000000000 + 40 * (tol * tol) * r / g_cell_xy g < m ->
  let c := nudge_corners (K := FltR) tol (rcorner_pos pos ori b) in
  (forall p, In p (corner_list c) -> fair g p) ->
  rectangle_shape g tol m (b_r c) (b_l c) (t_r c) -> rectangle_shape g tol m (b_r c) (b_l c) (j_r c) ->
  triangle_shape g tol m (j_r c) (b_r c) (t_r c) -> triangle_shape g tol m (j_l c) (b_l c) (t_l c) ->
  let held p := forall i j, well_in m i j (vx (ind g p)) (vy (ind g p)) -> stopped (fst w') i j in
  (forall u v, 0 <= u <= 1 -> 0 <= v <= 1 ->
     held (surface_point (b_r c) (b_l c) (t_r c) u v) /\ held (surface_point (b_r c) (b_l c) (j_r c) u v)) /\
  (forall u v, 0 <= u -> 0 <= v -> u + v <= 1 ->
     held (surface_point (j_r c) (b_r c) (t_r c) u v) /\ held (surface_point (j_l c) (b_l c) (t_l c) u v)).
Proof. exact mission_bucket. Qed.
Print Assumptions C53_bucket.
(** The calls of [C53_whole_example] with the pose of [C52_bucket_example]: the cell below the
    middle of the base, whatever the initial terrain. *)
Example C53_bucket_example : forall to_ticks noise rg l,
  exists fuel w', wrun Bucket mission_t to_ticks demo_g mission_cz mission_b mission_P 250 fuel hole_ps
    (init (A := ZNum (wunits mission_t)) (wgrid mission_t demo_g mission_cz) noise
       (new_sim (wgrid mission_t demo_g mission_cz) rg l)) = Ok w' /\ stopped (fst w') 44 40.
Proof. exact hole_stopped. Qed.

(** The blade, front and back. *)
Theorem C53_blade :
  forall t to_ticks g cz prm b P r lines ps noise rg l fuel w' m pos ori,
  snd w' = Some (pos, ori) -> m <= / 100 -> mission Blade t g cz prm b P r lines ps ->
  wrun Blade t to_ticks g cz b P lines fuel ps
    (init (A := ZNum (wunits t)) (wgrid t g cz) noise (new_sim (wgrid t g cz) rg l)) = Ok w' ->
  let tol := metres t (p_tol P) in
  1 / 10000000000 + 40 * (tol * tol) * (r + g_cell_xy g) / g_cell_xy g < m ->
  let f := nudge_corners (K := FltR) tol (rcorner_pos pos ori b) in
  let h := nudge_corners (K := FltR) tol (back_corners g (rcorner_pos pos ori b)) in
  (forall p, In p (corner_list f ++ corner_list h) -> fair g p) ->
  (forall c, c = f \/ c = h ->
     rectangle_shape g tol m (b_r c) (b_l c) (j_r c) /\ rectangle_shape g tol m (t_r c) (t_l c) (j_r c)) ->
  let held p := forall i j, well_in m i j (vx (ind g p)) (vy (ind g p)) -> stopped (fst w') i j in
  forall c, c = f \/ c = h -> forall u v, 0 <= u <= 1 -> 0 <= v <= 1 ->
    held (surface_point (b_r c) (b_l c) (j_r c) u v) /\ held (surface_point (t_r c) (t_l c) (j_r c) u v).
Proof. exact mission_blade. Qed.
Print Assumptions C53_blade.
