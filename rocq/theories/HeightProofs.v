(** No column of soil can hold more than all the soil above the lowest level of the terrain. *)
From Coq Require Import Reals ZArith List Bool Lra Lia Psatz.
From Verif Require Import Outcome Num Base Flt FltR FltRFacts State Spec Spec2 InvBase RelaxBase
  ModelTypes ModelGeometry ModelBodySoil ModelBodyPos ModelUtils ModelStep ModelRaster ModelWhole
  ModelExample ModelCheckLoop SpecGeo GeoProofs PoseProofs TypesProofs InsideProofs GeoClaims
  NoiseProofs StepProofs CheckProofs InitProofs RunProofs PropLemmas WholeProofs WholeClaims
  LockBound FloorProofs ExampleProofs ExampleLoop ExampleRun Demo DemoFacts CheckLoopProofs CheckLoopClaims.
Import ListNotations.
Open Scope Z_scope.

Lemma column_high (upm : units) (g : grid_t (ZNum upm)) (G : geom (ZNum upm)) legal near (w : world G) low :
  state_ok g G legal near w ->
  (forall i j, on_grid (fst w) i j -> low <= (terrain (fst w) i j : Z)) ->
  forall i j, on_grid (fst w) i j ->
  0 <= soil_height (fst w) 0 i j /\ 0 <= soil_height (fst w) 2 i j /\
  soil_at (fst w) i j - low <= total_soil (fst w) - nx (fst w) * ny (fst w) * low.
Proof.
  destruct w as [s old]. cbn [fst]. intros (_ & (N1 & N2 & Hc & Hr) & _) Hl i j Q.
  pose proof (rec_ok_nonneg near _ s _ Hr) as Hn.
  assert (SH : forall k i j, on_grid s i j -> layer k -> 0 <= soil_height s k i j).
  { intros k i' j' Hg Hk. destruct (Hc i' j' Hg) as (_ & _ & Hs).
    destruct (Hs k Hk) as (_ & E). rewrite E. apply InvBase.recorded_nonneg, Hn. }
  split; [apply SH; [exact Q|left; reflexivity]|]. split; [apply SH; [exact Q|right; reflexivity]|].
  destruct Q as [Qi Qj].
  pose proof (sum2_one (nx s) (ny s) (fun i j => soil_at s i j + - low) 0 i j Qi Qj ltac:(lia)) as B.
  cbv beta in B. rewrite sum2_add, sum2_const in B by lia. unfold total_soil.
  assert (F : forall i j, 0 <= i < nx s -> 0 <= j < ny s -> - 0 <= soil_at s i j + - low).
  { intros i' j' Hi Hj. unfold soil_at.
    pose proof (SH 0 i' j' (conj Hi Hj) (or_introl eq_refl)).
    pose proof (SH 2 i' j' (conj Hi Hj) (or_intror eq_refl)).
    pose proof (Hl i' j' (conj Hi Hj)). lia. }
  specialize (B F). lia.
Qed.

Lemma run_high (upm : units) (g : grid_t (ZNum upm)) (G : geom (ZNum upm)) legal near P low fuel ps w w' :
  grid_ok g -> params_ok g P -> geom_ok g G legal near -> 0 <= half_z g ->
  state_ok g G legal near w -> Forall legal ps ->
  low <= - ((cell_z g : Z) * half_z g) ->
  (forall i j, on_grid (fst w) i j -> low <= (terrain (fst w) i j : Z)) ->
  run G g P fuel ps w = Ok w' ->
  forall i j, on_grid (fst w') i j ->
  0 <= soil_height (fst w') 0 i j /\ 0 <= soil_height (fst w') 2 i j /\
  soil_at (fst w') i j - low <= total_soil (fst w) - nx (fst w) * ny (fst w) * low.
Proof.
  intros Hg HP HG Hz Hw Hps Hl Hf E i j Q.
  destruct (run_ok g G legal near Hg HG P fuel ps w w' HP Hw Hps E) as [Hw' (_ & _ & B & _)].
  pose proof (run_low upm g G legal near P low fuel ps w w' Hg HP HG Hz Hw Hps Hl Hf E) as Low.
  destruct (column_high upm g G legal near w' low Hw' Low i j Q) as (A1 & A2 & A3).
  assert (D : nx (fst w') = nx (fst w) /\ ny (fst w') = ny (fst w)).
  { destruct w as [s o], w' as [s' o']. destruct Hw as ((Z1 & Z2) & _), Hw' as ((Z3 & Z4) & _).
    cbn [fst]. lia. }
  destruct D as [D1 D2]. rewrite D1, D2 in A3.
  split; [exact A1|]. split; [exact A2|]. lia.
Qed.

Lemma mission_high k t to_ticks g cz prm b P r lines ps : mission k t g cz prm b P r lines ps ->
  forall noise rg l low,
  let wg := wgrid t g cz in
  let start := init (A := ZNum (wunits t)) wg noise (new_sim wg rg l) in
  low <= - (cz * g_half_z g) ->
  (forall i j, on_grid start i j -> low <= (terrain start i j : Z)) ->
  forall fuel w', wrun k t to_ticks g cz b P lines fuel ps start = Ok w' ->
  forall i j, on_grid (fst w') i j ->
  0 <= soil_height (fst w') 0 i j /\ 0 <= soil_height (fst w') 2 i j /\
  soil_at (fst w') i j - low <= total_soil start - (2 * g_half_x g + 1) * (2 * g_half_y g + 1) * low.
Proof.
  intros M noise rg l low wg start Hl Hf fuel w' E i j Q.
  pose proof (mission_low k t to_ticks g cz prm b P r lines ps M noise rg l low Hl Hf fuel w' E) as Low.
  destruct (mission_end _ _ _ _ _ _ _ _ _ _ _ M _ _ _ _ _ E) as [Hw' (_ & _ & B & _)].
  destruct (column_high _ _ (wgeom k t to_ticks g b P lines) _ _ w' low Hw' Low i j Q) as (A1 & A2 & A3).
  destruct w' as [s' o']. destruct Hw' as ((Z3 & Z4) & _). cbn [fst] in *.
  rewrite Z3, Z4 in A3. split; [exact A1|]. split; [exact A2|].
  cbn [wgrid half_x half_y] in A3. fold wg start in B. lia.
Qed.

Lemma box_high : exists w',
  grid_ok demo_grid /\ params_ok demo_grid box_params /\
  geom_ok demo_grid box_geom (fun _ => True) demo_near /\
  state_ok demo_grid box_geom (fun _ => True) demo_near box_start /\
  -60 <= - ((cell_z demo_grid : Z) * half_z demo_grid) /\
  (forall i j, on_grid (fst box_start) i j -> -60 <= (terrain (fst box_start) i j : Z) <= 50) /\
  run (A := N) box_geom demo_grid box_params demo_fuel [0; 1] box_start = Ok w' /\
  on_grid (fst w') 6 6 /\ soil_at (fst w') 6 6 = 90.
Proof.
  destruct box_hypotheses as (B1 & B2 & B3 & _).
  assert (T : match run (A := N) box_geom demo_grid box_params demo_fuel [0; 1] box_start with
    | Ok w => (soil_at (fst w) 6 6 =? 90) && (nx (fst w) =? 9) && (ny (fst w) =? 9)
    | _ => false end = true) by (vm_compute; reflexivity).
  destruct (run (A := N) box_geom demo_grid box_params demo_fuel [0; 1] box_start) as [w'| |];
    [|discriminate|discriminate].
  apply andb_prop in T as [T T3]. apply andb_prop in T as [T1 T2].
  apply Z.eqb_eq in T1, T2, T3.
  exists w'. split; [exact demo_grid_ok|]. do 3 (split; [assumption|]).
  split; [discriminate|]. split; [intros i j _; rewrite box_terrain; lia|].
  split; [reflexivity|]. split; [unfold on_grid; lia|exact T1].
Qed.
