(** Lemmas behind PropertiesEvolution.v. *)
From Coq Require Import Reals ZArith NArith List Bool String Lra Lia.
From Verif Require Import Outcome Num Base Flt FltR FltRFacts State Spec Spec2 InvBase RelaxBase
  ModelTypes ModelGeometry ModelBodySoil ModelBodyPos ModelUtils ModelStep ModelRaster ModelNoise
  ModelWhole ModelFiles ModelExample ModelCheckLoop ModelOutputs ModelEvolution SpecGeo PoseProofs
  TypesProofs InsideProofs GeoClaims NoiseProofs StepProofs CheckProofs InitProofs RunProofs
  PropLemmas WholeProofs WholeClaims FilesProofs FilesClaims LockBound FloorProofs ExampleProofs
  ExampleLoop ExampleRun CheckLoopProofs CheckLoopClaims OutputProofs OutputClaims EvolutionProofs.
Import ListNotations.
Open Scope Z_scope.

Section Evolution.
  Variables (k : kind) (t : Z) (to_ticks : R -> Z) (g : rgrid) (cz : Z) (prm : gparam FltR) (b : rbody).
  Variables (P : params (ZNum (wunits t))) (r : R) (lines : nat) (ps : list (rvec * rquat)).
  Hypothesis M : mission k t g cz prm b P r lines ps.
  Variables (pr : printer (ZNum (wunits t))) (pf : R -> string) (src : string).
  Variables (rg : rng_t) (l : list warning).
  Notation wg := (wgrid t g cz).
  Notation W := (wgeom k t to_ticks g b P lines).
  Notation noise := (tick_noise t g 32).
  Notation start := (init (A := ZNum (wunits t)) wg noise (new_sim wg rg l)).

  Lemma mission_units : 0 < t /\ 0 < cz /\ metres t cz = g_cell_z g /\
    exists sx sy sz cxy c, rnew_grid sx sy sz cxy c = Built g.
  Proof.
    destruct M as ((T & (sx & sy & sz & cxy & c & n & B & _) & _ & _ & _ & _ & C & _ & _ & _ & T1 & T2 & _) & _).
    split; [exact T|]. split; [lia|]. split; [exact C|]. exists sx, sy, sz, cxy, c. exact B.
  Qed.

  Lemma evolution_start : whole_init t g 32 (new_sim wg rg l) = Ok start.
  Proof.
    destruct mission_units as (T & C & Hm & B).
    apply whole_init_eq; try assumption; reflexivity.
  Qed.

  Variable H : Z.
  Hypothesis Hlow : cz * g_half_z g <= H.
  Hypothesis Hamp : (45 / 8 + g_cell_z g / 2 <= metres t H)%R.

  Lemma evolution_heights i j : on_grid start i j -> - H <= (terrain start i j : Z) <= H.
  Proof.
    destruct mission_units as (T & C & Hm & B). intros Q.
    destruct (whole_init_spec t cz g 32 T C Hm B (new_sim wg rg l) eq_refl eq_refl)
      as (s' & E & S & F). rewrite evolution_start in E. inversion E; subst s'. clear E.
    destruct S as (S1 & S2 & _). destruct (F i j) as (h & n & _ & _ & <- & A).
    { destruct Q as [Q1 Q2]. rewrite S1 in Q1. rewrite S2 in Q2. split; assumption. }
    rewrite (Rabs_pos_eq 32) in A by lra.
    assert (A' : (Rabs (metres t (terrain start i j)) <= metres t H)%R) by lra.
    unfold metres in A'.
    pose proof (Rle_abs (IZR (terrain start i j) / IZR t)) as A1.
    pose proof (Rle_abs (- (IZR (terrain start i j) / IZR t))) as A2. rewrite Rabs_Ropp in A2.
    assert (T' : (0 < IZR t)%R) by (apply IZR_lt; exact T).
    set (h := terrain start i j : Z) in *. clearbody h.
    assert (X : (- IZR H <= IZR h <= IZR H)%R).
    { split; apply (Rmult_le_reg_r (/ IZR t)); try (apply Rinv_0_lt_compat; exact T').
      - replace (- IZR H * / IZR t)%R with (- (IZR H / IZR t))%R by (unfold Rdiv; ring). lra.
      - fold (IZR h / IZR t)%R. fold (IZR H / IZR t)%R. lra. }
    rewrite <- opp_IZR in X. destruct X as [X1 X2]. apply le_IZR in X1. apply le_IZR in X2. lia.
  Qed.

  Hypothesis Hint : 3 * ((2 * g_half_x g + 1) * (2 * g_half_y g + 1) * H) <= cz * 2147483647.
  Variables (traj : list (rvec * rvec)) (steps : nat).
  Hypothesis Hps : stepped (K := FltR) sin cos g b traj steps = Ok ps.
  Notation evolution := (soil_evolution k t to_ticks g cz b P pr pf src steps lines).

  (** The run ends, in the same state with and without files; without Checks, or when they find
      nothing, in the state of the sequence of Steps. *)
  Lemma evolution_total (chk wr : bool) fs : exists w' N new, wlog (fst w') = (wlog start ++ new)%list /\
    (forall fuel, (N <= fuel)%nat ->
       (exists fs', evolution fuel chk wr traj rg l fs = Ok (w', fs') /\ (wr = false -> fs' = fs)) /\
       (chk = false \/ ~ In WRemoved new -> wrun k t to_ticks g cz b P lines fuel ps start = Ok w')) /\
    (chk = true -> In WRemoved new -> In WVolume new).
  Proof.
    assert (Q : exists v w' N new, (if chk then init_volume wg start else Ok 0) = Ok v /\
      wlog (fst w') = (wlog start ++ new)%list /\
      (forall fuel, (N <= fuel)%nat ->
        main_loop (K := FltR) W wg P k pr pf src (at_pose b) fuel chk false v (map Some ps) (start, None) fs
          = Ok (w', fs) /\
        (chk = false \/ ~ In WRemoved new -> wrun k t to_ticks g cz b P lines fuel ps start = Ok w')) /\
      (chk = true -> In WRemoved new -> In WVolume new)).
    { destruct chk.
      - destruct (mission_checks k t to_ticks g cz prm b P r lines ps M noise rg l H Hlow
          evolution_heights Hint) as (v & Ev & _ & w' & m & n & new & N & R & _ & L & I & C & S).
        exists v, w', N, new. split; [exact Ev|]. split; [exact L|]. split.
        + intros fuel Hf. split; [apply loop_checked; eexists; apply R, Hf|].
          intros [Q|Q]; [discriminate|]. apply S; [apply I, Q|exact Hf].
        + intros _ Q. apply (count_occ_In warning_dec). destruct n; [|lia].
          exfalso. apply (proj1 I eq_refl). exact Q.
      - destruct (mission_total k t to_ticks g cz prm b P r lines ps M noise rg l) as (w' & N & R).
        destruct (mission_balanced k t to_ticks g cz prm b P r lines ps M noise rg l N w' (R N (Nat.le_refl N)))
          as (new & L & _).
        exists 0, w', N, new. split; [reflexivity|]. split; [exact L|]. split; [|discriminate].
        intros fuel Hf. split; [apply loop_run; apply R, Hf|intros _; apply R, Hf]. }
    destruct Q as (v & w' & N & new & Ev & L & R & V). exists w', N, new. split; [exact L|].
    split; [|exact V]. intros fuel Hf. destruct (R fuel Hf) as [R1 R2]. split; [|exact R2].
    unfold soil_evolution. rewrite Hps. cbn [bind]. rewrite evolution_start. cbn [bind]. rewrite Ev.
    cbn [bind]. destruct wr.
    - apply (loop_writes (K := FltR) W wg P k pr pf src (at_pose b) fuel chk v _ _ fs) in R1 as (fs' & R1).
      exists fs'. split; [exact R1|discriminate].
    - exists fs. split; [exact R1|reflexivity].
  Qed.

  Lemma start_log : wlog start = l.
  Proof.
    destruct (init_spec (A := ZNum (wunits t)) wg noise (new_sim wg rg l)) as (table & _ & S & _).
    destruct S as (_ & _ & _ & _ & _ & _ & _ & _ & _ & S). exact S.
  Qed.

  (** What holds at its end. *)
  Lemma evolution_end chk wr fs fuel w' fs' : evolution fuel chk wr traj rg l fs = Ok (w', fs') ->
    check_soil (A := ZNum (wunits t)) (p_tol P) (fst w') = Ok (fst w', true) /\
    (exists new, wlog (fst w') = (wlog start ++ new)%list /\ total_soil (fst w') <= total_soil start /\
       (total_soil (fst w') = total_soil start <-> ~ In WRemoved new)) /\
    forall i j, on_grid (fst w') i j -> - H <= (terrain (fst w') i j : Z).
  Proof.
    unfold soil_evolution. rewrite Hps. cbn [bind]. rewrite evolution_start. cbn [bind].
    intros E. apply bind_ok in E as (v & _ & E).
    destruct (loop_keeps (K := FltR) wg W (wlegal g _) (wnear g _) P
      (mission_grid _ _ _ _ _ _ _ _ _ _ M) (mission_params _ _ _ _ _ _ _ _ _ _ M)
      (mission_geom _ _ to_ticks _ _ _ _ _ _ _ _ M)
      (mission_half_z k t g cz prm b P r lines ps M) H Hlow k pr pf src (at_pose b) fuel chk wr v (map Some ps)
      (start, None) fs w' fs' (mission_start k t to_ticks g cz prm b P r lines ps M noise rg l)
      (mission_poses _ _ _ _ _ _ _ _ _ _ M)) as (R1 & R2 & R3); [|exact E|].
    { intros i j Q. apply evolution_heights. exact Q. }
    split; [|split].
    - exact (state_ok_check_soil wg W (wlegal g _) (wnear g _) P (mission_grid _ _ _ _ _ _ _ _ _ _ M)
        (mission_params _ _ _ _ _ _ _ _ _ _ M) w' R1).
    - apply balanced_iff in R3. exact R3.
    - exact R2.
  Qed.
End Evolution.

(** ** The files *)
Lemma stepped_some {K : flt} sn cs (g : ggrid K) b traj fuel q :
  stepped sn cs g b traj fuel = Ok q -> (1 <= List.length q)%nat.
Proof.
  unfold stepped. intros E. apply bind_ok in E as ([ps ts] & E & Q). inversion Q; subst. clear Q.
  destruct (plan_shape _ _ _ _ _ _ _ _ E) as (ps' & ts' & p0 & pn & -> & -> & _).
  rewrite firstn_length, app_length. cbn [List.length]. lia.
Qed.

Lemma evolution_files k t to_ticks g cz b P pr pf src steps lines fuel chk traj rg l fs w' fs' ps :
  soil_evolution k t to_ticks g cz b P pr pf src steps lines fuel chk true traj rg l fs = Ok (w', fs') ->
  stepped (K := FltR) sin cos g b traj steps = Ok ps ->
  (N.of_nat (List.length ps) <= 100000)%N ->
  let dir := results_dir src in
  let stem := (match k with Bucket => "bucket" | Blade => "blade" end)%string in
  taken fs dir "terrain" 0 -> taken fs dir stem 0 ->
  let last := (N.of_nat (List.length ps) - 1)%N in
  fs' (file_name dir "terrain" last) = Some (terrain_text pr (fst w')) /\
  fs' (file_name dir "body_soil" last) = Some (body_soil_text pr (fst w')) /\
  fs' (file_name dir stem last) =
    Some (body_text (K := FltR) (wgeom k t to_ticks g b P lines) k pf (at_pose b) (snd w')) /\
  (forall i, (i <= last)%N -> fs' (file_name dir "terrain" i) <> None /\
     fs' (file_name dir "body_soil" i) <> None /\ fs' (file_name dir stem i) <> None) /\
  (forall f, (forall i, (i <= last)%N -> f <> file_name dir "terrain" i /\
     f <> file_name dir "body_soil" i /\ f <> file_name dir stem i) -> fs' f = fs f).
Proof.
  intros E Hps Hn dir stem T1 T2 last. pose proof (stepped_some _ _ _ _ _ _ _ Hps) as H1.
  unfold soil_evolution in E. rewrite Hps in E. cbn [bind] in E.
  apply bind_ok in E as (s & _ & E). apply bind_ok in E as (v & _ & E).
  pose proof (proj1 (loop_writes (K := FltR) (wgeom k t to_ticks g b P lines) (wgrid t g cz) P k pr pf src
    (at_pose b) fuel chk v (map Some ps) (s, None) fs fs w') (ex_intro _ fs' E)) as E0.
  apply (loop_files (K := FltR) _ _ _ _ _ _ _ _ _ _ _ _ _ _ _ _ 0 0) in E as [F1 F2];
    [|rewrite map_length; lia|rewrite map_length; lia|exact T1|exact T2].
  rewrite map_length in F1, F2.
  assert (Last : exists w1, w1 = w' /\
    fs' (file_name dir "terrain" last) = Some (terrain_text pr (fst w1)) /\
    fs' (file_name dir "body_soil" last) = Some (body_soil_text pr (fst w1)) /\
    fs' (file_name dir stem last) =
      Some (body_text (K := FltR) (wgeom k t to_ticks g b P lines) k pf (at_pose b) (snd w1))).
  { destruct (F1 (List.length ps - 1)%nat ltac:(lia)) as (w1 & G1 & G2 & G3 & G4).
    replace (S (List.length ps - 1)) with (List.length (map Some ps)) in G1 by (rewrite map_length; lia).
    rewrite firstn_all in G1. rewrite E0 in G1. exists w1. split; [congruence|].
    replace (0 + N.of_nat (List.length ps - 1))%N with last in G2, G3, G4 by (unfold last; lia).
    split; [exact G2|]. split; [exact G3|exact G4]. }
  destruct Last as (w1 & -> & L1 & L2 & L3).
  split; [exact L1|]. split; [exact L2|]. split; [exact L3|]. split.
  - intros i Hi. destruct (F1 (N.to_nat i) ltac:(unfold last in Hi; lia)) as (w1 & _ & G2 & G3 & G4).
    rewrite N2Nat.id in G2, G3, G4. cbn [N.add] in G2, G3, G4.
    unfold dir, stem.
    split; [rewrite G2; discriminate|]. split; [rewrite G3; discriminate|].
    change (match k with Bucket => "bucket" | Blade => "blade" end)%string with (stem_of k).
    rewrite G4. discriminate.
  - intros f Q. apply F2. intros i Hi. apply (Q i). unfold last. lia.
Qed.

(** ** The forms used in PropertiesEvolution.v *)
Lemma evolution_whole k t to_ticks g cz prm b P r lines ps : mission k t g cz prm b P r lines ps ->
  forall traj steps H, stepped (K := FltR) sin cos g b traj steps = Ok ps ->
  cz * g_half_z g <= H -> (45 / 8 + g_cell_z g / 2 <= metres t H)%R ->
  3 * ((2 * g_half_x g + 1) * (2 * g_half_y g + 1) * H) <= cz * 2147483647 ->
  forall pr pf src rg l, exists start,
  whole_init t g 32 (new_sim (wgrid t g cz) rg l) = Ok start /\
  (forall i j, on_grid start i j -> - H <= (terrain start i j : Z) <= H) /\
  forall chk wr fs, exists w' N new,
    (forall fuel, (N <= fuel)%nat ->
       (exists fs', soil_evolution k t to_ticks g cz b P pr pf src steps lines fuel chk wr traj rg l fs =
          Ok (w', fs') /\ (wr = false -> fs' = fs)) /\
       (chk = false \/ ~ In WRemoved new -> wrun k t to_ticks g cz b P lines fuel ps start = Ok w')) /\
    check_soil (A := ZNum (wunits t)) (p_tol P) (fst w') = Ok (fst w', true) /\
    wlog (fst w') = (l ++ new)%list /\ total_soil (fst w') <= total_soil start /\
    (total_soil (fst w') = total_soil start <-> ~ In WRemoved new) /\
    (chk = true -> In WRemoved new -> In WVolume new) /\
    (forall i j, on_grid (fst w') i j -> - H <= (terrain (fst w') i j : Z)).
Proof.
  intros M traj steps H Hps Hlow Hamp Hint pr pf src rg l.
  eexists. split; [eapply evolution_start; exact M|].
  split; [eapply evolution_heights; eassumption|]. intros chk wr fs.
  destruct (evolution_total k t to_ticks g cz prm b P r lines ps M pr pf src rg l H Hlow Hamp Hint traj
    steps Hps chk wr fs) as (w' & N & new & L & R & V).
  exists w', N, new. split; [exact R|]. destruct (R N (Nat.le_refl N)) as ((fs' & E & _) & _).
  destruct (evolution_end k t to_ticks g cz prm b P r lines ps M pr pf src rg l H Hlow Hamp traj steps Hps
    chk wr fs N w' fs' E) as (E1 & (new2 & L2 & E2 & E3) & E4).
  rewrite L in L2. apply app_inv_head in L2. subst new2. rewrite start_log in L.
  do 5 (split; [assumption|]). exact E4.
Qed.

(** The default run. *)
Lemma ex_evolution o lines : grid_fuel ex_g <= Z.of_nat lines ->
  exists ps, stepped (K := FltR) sin cos ex_g ex_b (ex_traj o) (Z.to_nat 5001) = Ok ps /\
  (N.of_nat (List.length ps) <= 5002)%N /\
  forall to_ticks pr pf src rg l, exists start,
  whole_init ex_t ex_g 32 (new_sim (wgrid ex_t ex_g ex_cz) rg l) = Ok start /\
  (forall i j, on_grid start i j -> Z.abs (terrain start i j : Z) <= 563 * ex_cz) /\
  forall chk wr fs, exists w' N new,
    (forall fuel, (N <= fuel)%nat ->
       (exists fs', soil_evolution Bucket ex_t to_ticks ex_g ex_cz ex_b ex_P pr pf src (Z.to_nat 5001) lines
          fuel chk wr (ex_traj o) rg l fs = Ok (w', fs') /\ (wr = false -> fs' = fs)) /\
       (chk = false \/ ~ In WRemoved new ->
        wrun Bucket ex_t to_ticks ex_g ex_cz ex_b ex_P lines fuel ps start = Ok w')) /\
    check_soil (A := ZNum (wunits ex_t)) (p_tol ex_P) (fst w') = Ok (fst w', true) /\
    wlog (fst w') = (l ++ new)%list /\ total_soil (fst w') <= total_soil start /\
    (total_soil (fst w') = total_soil start <-> ~ In WRemoved new) /\
    (chk = true -> In WRemoved new -> In WVolume new) /\
    (forall i j, on_grid (fst w') i j -> -563 * ex_cz <= (terrain (fst w') i j : Z)).
Proof.
  intros Hl. destruct (ex_mission o (Z.to_nat 5001) lines ltac:(lia) Hl) as (ps & E & M).
  exists ps. split; [exact E|]. split; [apply stepped_length in E; lia|]. intros to_ticks pr pf src rg l.
  destruct ex_half as (X & Y & Z0). destruct ex_cells as [_ Cz].
  destruct (evolution_whole Bucket ex_t to_ticks ex_g ex_cz ex_prm ex_b ex_P ex_r lines ps M (ex_traj o)
    (Z.to_nat 5001) (563 * ex_cz) E) with (pr := pr) (pf := pf) (src := src) (rg := rg) (l := l)
    as (start & E0 & B0 & R).
  - rewrite Z0. unfold ex_cz. lia.
  - rewrite Cz. unfold metres, ex_cz, ex_t. rewrite mult_IZR. lra.
  - rewrite X, Y. unfold ex_cz. lia.
  - exists start. split; [exact E0|]. split.
    + intros i j Q. specialize (B0 i j Q). lia.
    + exact R.
Qed.
