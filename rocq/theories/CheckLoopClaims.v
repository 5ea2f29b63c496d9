(** Lemmas behind PropertiesLoop.v. *)
From Coq Require Import Reals ZArith List Bool Lra Lia Psatz.
From Verif Require Import Outcome Num Base Flt FltR FltRFacts State Spec Spec2 InvBase RelaxBase
  ModelTypes ModelGeometry ModelBodySoil ModelBodyPos ModelUtils ModelStep ModelRaster ModelWhole
  ModelExample ModelCheckLoop SpecGeo GeoProofs PoseProofs TypesProofs InsideProofs GeoClaims
  NoiseProofs StepProofs CheckProofs InitProofs RunProofs PropLemmas WholeProofs WholeClaims
  LockBound FloorProofs ExampleProofs ExampleLoop ExampleRun Demo DemoFacts CheckLoopProofs.
Import ListNotations.
Open Scope Z_scope.

Section Claims.
  Variables (k : kind) (t : Z) (to_ticks : R -> Z) (g : rgrid) (cz : Z) (prm : gparam FltR) (b : rbody).
  Variables (P : params (ZNum (wunits t))) (r : R) (lines : nat) (ps : list (rvec * rquat)).
  Hypothesis M : mission k t g cz prm b P r lines ps.
  Variables (noise : list nat -> Z -> Z -> Z) (rg : rng_t) (l : list warning) (Lb : Z).
  Notation wg := (wgrid t g cz).
  Notation W := (wgeom k t to_ticks g b P lines).
  Notation start := (init (A := ZNum (wunits t)) wg noise (new_sim wg rg l)).
  Hypothesis Hlow : cz * g_half_z g <= Lb.

  Lemma mission_half_z : 0 <= g_half_z g.
  Proof.
    destruct M as (S & R & L & _).
    pose proof (setup_fits k t g cz prm b P r _ lines S (Rle_refl _) L) as Q.
    unfold grid_fits in Q. lia.
  Qed.

  Lemma mission_floor fuel w' :
    floored Lb start -> wrun k t to_ticks g cz b P lines fuel ps start = Ok w' ->
    floored Lb (fst w').
  Proof.
    intros Hf E.
    exact (run_floored wg W (wlegal g _) (wnear g _) P
      (mission_grid _ _ _ _ _ _ _ _ _ _ M) (mission_params _ _ _ _ _ _ _ _ _ _ M)
      (mission_geom _ _ to_ticks _ _ _ _ _ _ _ _ M) Lb mission_half_z Hlow fuel (map Some ps)
      (start, None) w' (mission_start k t to_ticks g cz prm b P r lines ps M noise rg l)
      (mission_poses _ _ _ _ _ _ _ _ _ _ M) Hf E).
  Qed.

  Lemma start_facts : nx start = 2 * g_half_x g + 1 /\ ny start = 2 * g_half_y g + 1 /\
    (forall kk i j, (body_soil start kk i j : Z) = 0).
  Proof.
    destruct (init_spec (A := ZNum (wunits t)) wg noise (new_sim wg rg l)) as (table & _ & S & _).
    destruct S as (S1 & S2 & _ & S4 & S5 & _). rewrite S1, S2.
    split; [reflexivity|]. split; [reflexivity|]. intros kk i j. rewrite S5. reflexivity.
  Qed.

  Lemma start_total : (forall i j, on_grid start i j -> (terrain start i j : Z) <= Lb) ->
    total_soil start <= nx start * ny start * Lb.
  Proof.
    intros H. destruct start_facts as (_ & _ & S0).
    destruct (mission_start k t to_ticks g cz prm b P r lines ps M noise rg l) as (_ & (N1 & N2 & _) & _).
    rewrite <- sum2_const by lia. apply sum2_mono. intros i j Hi Hj.
    specialize (H i j (conj Hi Hj)). unfold soil_at, soil_height. rewrite !S0. zn. lia.
  Qed.

  Lemma mission_checks :
    (forall i j, on_grid start i j -> - Lb <= (terrain start i j : Z) <= Lb) ->
    3 * ((2 * g_half_x g + 1) * (2 * g_half_y g + 1) * Lb) <= cz * 2147483647 ->
    exists v, init_volume wg start = Ok v /\ cz * v = total_soil start /\
    exists w' m n new N,
      (forall fuel, (N <= fuel)%nat -> checked_run W wg P fuel v (map Some ps) (start, None) =
         Ok (w', repeat (true, true) m ++ repeat (false, true) n)) /\
      (m + n)%nat = length ps /\ wlog (fst w') = wlog start ++ new /\
      (n = 0%nat <-> ~ In WRemoved new) /\
      (n <= count_occ warning_dec new WVolume)%nat /\
      (n = 0%nat -> forall fuel, (N <= fuel)%nat ->
         wrun k t to_ticks g cz b P lines fuel ps start = Ok w').
  Proof.
    intros Ht Hb. destruct start_facts as (D1 & D2 & S0).
    pose proof (start_total (fun i j Q => proj2 (Ht i j Q))) as T0.
    assert (Hf : floored Lb start) by (intros i j Q; apply Ht; exact Q).
    assert (Hb' : total_soil start + 2 * (nx start * ny start * Lb) <= cz * 2147483647)
      by (rewrite D1, D2 in *; lia).
    pose proof (mission_start k t to_ticks g cz prm b P r lines ps M noise rg l) as Hs.
    destruct (init_volume_ok wg W (wlegal g _) (wnear g _) (mission_grid _ _ _ _ _ _ _ _ _ _ M)
      mission_half_z Lb Hlow start None Hs S0 Hf Hb') as (v & Ev & Tv).
    exists v. split; [exact Ev|]. split; [exact Tv|].
    change (cell_z wg : Z) with cz in Tv.
    destruct (checked_run_total wg W (wlegal g _) (wnear g _) P
      (mission_grid _ _ _ _ _ _ _ _ _ _ M) (mission_params _ _ _ _ _ _ _ _ _ _ M)
      (mission_geom _ _ to_ticks _ _ _ _ _ _ _ _ M) mission_half_z Lb Hlow v (map Some ps)
      (start, None) Hs (mission_poses _ _ _ _ _ _ _ _ _ _ M) Hf Hb')
      as (w' & m & n & N & R1 & R2 & _ & R4 & _ & R6 & R7 & new2 & L2 & C2); [cbn [fst]; change (cell_z wg : Z) with cz; lia|].
    apply balanced_iff in R4 as (new & L1 & _ & L3). cbn [fst] in *.
    exists w', m, n, new, N. split; [exact R1|]. split; [rewrite R2; apply map_length|].
    split; [exact L1|]. rewrite L1 in L2. apply app_inv_head in L2. subst new2.
    split; [|split; [exact C2|exact R7]].
    change (cell_z wg : Z) with cz in R6. rewrite R6 by lia. rewrite <- L3, <- Tv. reflexivity.
  Qed.
End Claims.

Lemma snap_bound h c : 0 < c -> Z.abs (c * round_half_away h c) <= Z.abs h + c.
Proof.
  intros Hc. unfold round_half_away. destruct (Z.leb_spec 0 h).
  - pose proof (Z.mul_div_le (2 * h + c) (2 * c) ltac:(lia)).
    pose proof (Z.div_pos (2 * h + c) (2 * c) ltac:(lia) ltac:(lia)).
    rewrite !Z.abs_eq by nia. nia.
  - pose proof (Z.mul_div_le (2 * - h + c) (2 * c) ltac:(lia)).
    pose proof (Z.div_pos (2 * - h + c) (2 * c) ltac:(lia) ltac:(lia)).
    rewrite Z.mul_opp_r, Z.abs_opp, Z.abs_eq by nia. rewrite Z.abs_neq by lia. nia.
Qed.

(** The default run of the example program, on a terrain between -100 m and 100 m. *)
Lemma ex_checked o lines : grid_fuel ex_g <= Z.of_nat lines ->
  exists ps, rstepped ex_g ex_b (ex_traj o) (Z.to_nat 5001) = Ok ps /\
  forall to_ticks noise rg l, (forall table i j, Z.abs (noise table i j) <= 100 * ex_t) ->
  let wg := wgrid ex_t ex_g ex_cz in
  let start := init (A := ZNum (wunits ex_t)) wg noise (new_sim wg rg l) in
  exists v, init_volume wg start = Ok v /\ ex_cz * v = total_soil start /\
  exists w' m n new N,
    (forall fuel, (N <= fuel)%nat ->
       checked_run (wgeom Bucket ex_t to_ticks ex_g ex_b ex_P lines) wg ex_P fuel v (map Some ps)
         (start, None) = Ok (w', repeat (true, true) m ++ repeat (false, true) n)) /\
    (m + n)%nat = length ps /\ wlog (fst w') = wlog start ++ new /\
    (n = 0%nat <-> ~ In WRemoved new) /\
    (n <= count_occ warning_dec new WVolume)%nat /\
    (n = 0%nat -> forall fuel, (N <= fuel)%nat ->
       wrun Bucket ex_t to_ticks ex_g ex_cz ex_b ex_P lines fuel ps start = Ok w').
Proof.
  intros Hl. destruct (ex_mission o (Z.to_nat 5001) lines ltac:(lia) Hl) as (ps & E & M).
  exists ps. split; [exact E|]. intros to_ticks noise rg l Hn wg start.
  destruct ex_half as (X & Y & Z0).
  apply (mission_checks _ _ to_ticks _ _ _ _ _ _ _ _ M noise rg l (101 * ex_t)).
  - rewrite Z0. unfold ex_cz, ex_t. lia.
  - intros i j Q. fold wg. fold start. fold wg start in Q.
    destruct (init_spec (A := ZNum (wunits ex_t)) wg noise (new_sim wg rg l)) as (table & _ & S & T).
    fold start in S, T. destruct S as (S1 & S2 & _).
    destruct (T i j) as [T1 _]. rewrite T1.
    + pose proof (snap_bound (noise table i j) ex_cz ltac:(reflexivity)) as B.
      specialize (Hn table i j). change (cell_z wg : Z) with ex_cz. zn.
      unfold ex_cz, ex_t in *. lia.
    + destruct Q as [Q1 Q2]. rewrite S1 in Q1. rewrite S2 in Q2. split; assumption.
  - rewrite X, Y. unfold ex_cz, ex_t. lia.
Qed.

(** ** The forms used in PropertiesLoop.v *)
Lemma run_low (upm : units) (g : grid_t (ZNum upm)) (G : geom (ZNum upm)) legal near P low fuel ps w w' :
  grid_ok g -> params_ok g P -> geom_ok g G legal near -> 0 <= half_z g ->
  state_ok g G legal near w -> Forall legal ps ->
  low <= - ((cell_z g : Z) * half_z g) ->
  (forall i j, on_grid (fst w) i j -> low <= (terrain (fst w) i j : Z)) ->
  run G g P fuel ps w = Ok w' ->
  forall i j, on_grid (fst w') i j -> low <= (terrain (fst w') i j : Z).
Proof.
  intros Hg HP HG Hz Hw Hps Hl Hf E i j Q.
  rewrite <- (Z.opp_involutive low).
  apply (run_floored g G legal near P Hg HP HG (- low) Hz ltac:(lia) fuel ps w w'); auto.
  intros i' j' Q'. rewrite Z.opp_involutive. auto.
Qed.

Lemma mission_low k t to_ticks g cz prm b P r lines ps : mission k t g cz prm b P r lines ps ->
  forall noise rg l low,
  let wg := wgrid t g cz in
  let start := init (A := ZNum (wunits t)) wg noise (new_sim wg rg l) in
  low <= - (cz * g_half_z g) ->
  (forall i j, on_grid start i j -> low <= (terrain start i j : Z)) ->
  forall fuel w', wrun k t to_ticks g cz b P lines fuel ps start = Ok w' ->
  forall i j, on_grid (fst w') i j -> low <= (terrain (fst w') i j : Z).
Proof.
  intros M noise rg l low wg start Hl Hf fuel w' E i j Q.
  rewrite <- (Z.opp_involutive low).
  apply (mission_floor k t to_ticks g cz prm b P r lines ps M noise rg l (- low) ltac:(lia) fuel w'); auto.
  intros i' j' Q'. rewrite Z.opp_involutive. auto.
Qed.

Lemma run_checks (upm : units) (g : grid_t (ZNum upm)) (G : geom (ZNum upm)) legal near P low v ps w :
  grid_ok g -> params_ok g P -> geom_ok g G legal near -> 0 <= half_z g ->
  state_ok g G legal near w -> Forall legal ps ->
  low <= - ((cell_z g : Z) * half_z g) ->
  (forall i j, on_grid (fst w) i j -> low <= (terrain (fst w) i j : Z)) ->
  total_soil (fst w) - 2 * (nx (fst w) * ny (fst w) * low) <= (cell_z g : Z) * 2147483647 ->
  total_soil (fst w) = (cell_z g : Z) * v ->
  exists w' m n new N,
    (forall fuel, (N <= fuel)%nat -> checked_run G g P fuel v ps w =
       Ok (w', repeat (true, true) m ++ repeat (false, true) n)) /\
    (m + n)%nat = length ps /\ wlog (fst w') = wlog (fst w) ++ new /\
    (n = 0%nat <-> ~ In WRemoved new) /\
    (n <= count_occ warning_dec new WVolume)%nat /\
    (n = 0%nat -> forall fuel, (N <= fuel)%nat -> run G g P fuel ps w = Ok w').
Proof.
  intros Hg HP HG Hz Hw Hps Hl Hf Hb Hv.
  destruct (checked_run_total g G legal near P Hg HP HG Hz (- low) ltac:(lia) v ps w Hw Hps)
    as (w' & m & n & N & R1 & R2 & _ & R4 & _ & R6 & R7 & new2 & L2 & C2); [|lia|lia|].
  { intros i j Q. rewrite Z.opp_involutive. auto. }
  apply balanced_iff in R4 as (new & L1 & _ & L3).
  exists w', m, n, new, N. split; [exact R1|]. split; [exact R2|]. split; [exact L1|].
  rewrite L1 in L2. apply app_inv_head in L2. subst new2.
  split; [|split; [exact C2|exact R7]]. rewrite (R6 Hv), <- L3, Hv. reflexivity.
Qed.

(** ** Examples *)
Lemma box_terrain i j : (terrain (fst box_start) i j : Z) = 50.
Proof. reflexivity. Qed.

Lemma box_low : exists w',
  grid_ok demo_grid /\ params_ok demo_grid box_params /\
  geom_ok demo_grid box_geom (fun _ => True) demo_near /\
  state_ok demo_grid box_geom (fun _ => True) demo_near box_start /\
  -60 <= - ((cell_z demo_grid : Z) * half_z demo_grid) /\
  (forall i j, on_grid (fst box_start) i j -> 50 <= (terrain (fst box_start) i j : Z)) /\
  run (A := N) box_geom demo_grid box_params demo_fuel [0; 1; 0] box_start = Ok w' /\
  on_grid (fst w') 4 4 /\ (terrain (fst w') 4 4 : Z) = 0.
Proof.
  destruct box_hypotheses as (B1 & B2 & B3 & _).
  assert (T : match run (A := N) box_geom demo_grid box_params demo_fuel [0; 1; 0] box_start with
    | Ok w => ((terrain (fst w) 4 4 : Z) =? 0) && (nx (fst w) =? 9) && (ny (fst w) =? 9)
    | _ => false end = true) by (vm_compute; reflexivity).
  destruct (run (A := N) box_geom demo_grid box_params demo_fuel [0; 1; 0] box_start) as [w'| |];
    [|discriminate|discriminate].
  apply andb_prop in T as [T T3]. apply andb_prop in T as [T1 T2].
  apply Z.eqb_eq in T1, T2, T3.
  exists w'. split; [exact demo_grid_ok|]. do 3 (split; [assumption|]).
  split; [discriminate|]. split; [intros i j _; rewrite box_terrain; lia|].
  split; [reflexivity|]. split; [unfold on_grid; lia|exact T1].
Qed.

Lemma answers_spec {G : geom N} (r : outcome (world G * list (bool * bool))) l :
  match r with Ok (_, a) => if list_eq_dec (fun x y : bool * bool =>
    ltac:(decide equality; apply bool_dec)) a l then true else false | _ => false end = true ->
  exists w', r = Ok (w', l).
Proof.
  destruct r as [[w' a]| |]; [|discriminate|discriminate].
  destruct (list_eq_dec _ a l) as [->|]; [eauto|discriminate].
Qed.

Lemma demo_checks :
  (total_soil (fst demo_start) = (cell_z demo_grid : Z) * 63 /\
   total_soil (fst demo_start) - 2 * (nx (fst demo_start) * ny (fst demo_start) * -60) <=
     (cell_z demo_grid : Z) * 2147483647 /\
   exists w', checked_run (A := N) demo_geom demo_grid demo_params demo_fuel 63 [0; 1] demo_start =
     Ok (w', [(true, true); (true, true)])) /\
  (total_soil (fst box_start) = (cell_z demo_grid : Z) * 405 /\
   total_soil (fst box_start) - 2 * (nx (fst box_start) * ny (fst box_start) * -60) <=
     (cell_z demo_grid : Z) * 2147483647 /\
   exists w', checked_run (A := N) box_geom demo_grid box_params demo_fuel 405 [0; 1; 0] box_start =
     Ok (w', [(true, true); (false, true); (false, true)])).
Proof.
  split; (split; [vm_compute; reflexivity|split; [vm_compute; discriminate|]]);
    apply answers_spec; vm_compute; reflexivity.
Qed.

Lemma ex_low (o : R) lines : grid_fuel ex_g <= Z.of_nat lines ->
  exists ps, rstepped ex_g ex_b (ex_traj o) (Z.to_nat 5001) = Ok ps /\
  mission Bucket ex_t ex_g ex_cz ex_prm ex_b ex_P ex_r lines ps /\
  -4 * ex_t <= - (ex_cz * g_half_z ex_g) /\
  forall to_ticks rg l,
  let wg := wgrid ex_t ex_g ex_cz in
  let start := init (A := ZNum (wunits ex_t)) wg (fun _ _ _ => -3 * ex_t) (new_sim wg rg l) in
  (forall i j, on_grid start i j -> -4 * ex_t <= (terrain start i j : Z)) /\
  exists fuel w', wrun Bucket ex_t to_ticks ex_g ex_cz ex_b ex_P lines fuel ps start = Ok w'.
Proof.
  intros Hl. destruct (ex_mission o (Z.to_nat 5001) lines ltac:(lia) Hl) as (ps & E & M).
  exists ps. split; [exact E|]. split; [exact M|]. destruct ex_half as (_ & _ & Z0).
  split; [rewrite Z0; unfold ex_cz, ex_t; lia|]. intros to_ticks rg l wg start. split.
  - intros i j [Q1 Q2].
    destruct (init_spec (A := ZNum (wunits ex_t)) wg (fun _ _ _ => -3 * ex_t) (new_sim wg rg l))
      as (table & _ & S & T).
    fold start in S, T. destruct S as (S1 & S2 & _). destruct (T i j) as [T1 _].
    rewrite T1 by (rewrite S1 in Q1; rewrite S2 in Q2; split; assumption).
    vm_compute. discriminate.
  - destruct (mission_total _ _ to_ticks _ _ _ _ _ _ _ _ M (fun _ _ _ => -3 * ex_t) rg l) as (w' & n & Q).
    exists n, w'. apply Q. apply Nat.le_refl.
Qed.

(** A state that fails both tests. *)
Definition bad_state : sim N := set_bs (set_t (fst demo_start) 4 4 990) 1 4 4 40.

Lemma bad_checked :
  records_in bad_state /\
  (forall i j, in_area (body_area bad_state) i j -> on_grid bad_state i j) /\
  exists s', check (A := N) demo_grid demo_params 63 bad_state = Ok (s', (false, false)).
Proof.
  split; [constructor|]. split; [unfold in_area, on_grid; cbn; lia|].
  eexists. vm_compute. reflexivity.
Qed.
