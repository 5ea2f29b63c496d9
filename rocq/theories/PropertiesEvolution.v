(** Properties of the example program over the real numbers, from Init to its end
    (ModelEvolution.v). Statements only; the proofs are in EvolutionProofs.v and
    EvolutionClaims.v.

    [mission] is explained in PropertiesWhole.v, [same_but_terrain] says that all the members
    but the terrain and the generator are equal. *)
From Coq Require Import Reals ZArith NArith Arith List Bool String Lra.
From Verif Require Import Outcome Num Base Flt FltR State Spec Spec2
  ModelTypes ModelGeometry ModelBodySoil ModelBodyPos ModelUtils ModelStep ModelRaster ModelNoise
  ModelWhole ModelFiles ModelExample ModelCheckLoop ModelOutputs ModelEvolution SpecGeo PoseProofs
  TypesProofs InsideProofs GeoClaims CheckProofs InitProofs WholeProofs WholeClaims ExampleProofs
  ExampleLoop ExampleRun FilesProofs FilesClaims OutputProofs OutputClaims EvolutionProofs EvolutionClaims.
Import ListNotations.
Open Scope Z_scope.

(** ** C59 *)
(** Init returns, and each height is the noise of its cell, without rounding. *)
Theorem C59_init :
  forall t cz (g : ggrid FltR) amp, 0 < t -> 0 < cz -> metres t cz = g_cell_z g ->
  (exists sx sy sz cxy c, rnew_grid sx sy sz cxy c = Built g) ->
  forall s : sim (ZNum (wunits t)), nx s = 2 * g_half_x g + 1 -> ny s = 2 * g_half_y g + 1 ->
  exists s', whole_init t g amp s = Ok s' /\ same_but_terrain s s' /\
  forall i j, on_grid s i j -> exists h n,
    cell_noise (K := FltR) g amp (map Z.of_nat (fst (perm_table (rng s)))) i j = Ok h /\
    (terrain s' i j : Z) = cz * n /\ metres t (terrain s' i j) = h /\
    (Rabs h <= 45 / 256 * Rabs amp + g_cell_z g / 2)%R.
Proof. exact whole_init_spec. Qed.
Print Assumptions C59_init.
Example C59_init_example :
  0 < ex_t /\ 0 < ex_cz /\ metres ex_t ex_cz = g_cell_z ex_g /\
  (exists sx sy sz cxy c, rnew_grid sx sy sz cxy c = Built ex_g) /\
  forall rg, let s := new_sim (wgrid ex_t ex_g ex_cz) rg [] in
  nx s = 2 * g_half_x ex_g + 1 /\ ny s = 2 * g_half_y ex_g + 1.
Proof.
  split; [reflexivity|]. split; [reflexivity|].
  split; [unfold metres, ex_cz, ex_t; rewrite (proj2 ex_cells); lra|].
  split; [exists 4%R, 4%R, 4%R, (/ 20)%R, (/ 100)%R; exact ex_grid_built|].
  intros rg. split; reflexivity.
Qed.

(** The states that C01_whole and the other claims about whole executions start from, which take
    the noise as any function, are those of Init. *)
Theorem C59_any_noise :
  forall t cz (g : ggrid FltR) amp, 0 < t -> 0 < cz -> metres t cz = g_cell_z g ->
  (exists sx sy sz cxy c, rnew_grid sx sy sz cxy c = Built g) ->
  exists noise, forall rg l, let s := new_sim (wgrid t g cz) rg l in
  whole_init t g amp s = Ok (init (A := ZNum (wunits t)) (wgrid t g cz) noise s).
Proof.
  intros t cz g amp Ht Hc Hm Hg. exists (tick_noise t g amp). intros rg l s.
  apply whole_init_eq; try assumption; reflexivity.
Qed.
Print Assumptions C59_any_noise.

(** SoilEvolution ends, whatever the options. Without Checks, or if no soil is removed, it ends
    in the state of the sequence of Steps; with Checks, removed soil is also reported by
    CheckVolume. The state at its end passes CheckSoil, soil is lost if and only if a warning
    says so, and the terrain is nowhere below [- H], a depth that the initial terrain and the
    grid do not reach. *)
Theorem C59_whole :
  forall k t to_ticks g cz prm b P r lines ps, mission k t g cz prm b P r lines ps ->
  forall traj steps H, stepped (K := FltR) sin cos g b traj steps = Ok ps ->
  cz * g_half_z g <= H -> (45 / 8 + g_cell_z g / 2 <= metres t H)%R ->
  (* the int counters cannot overflow *)
  3 * ((2 * g_half_x g + 1) * (2 * g_half_y g + 1) * H) <= cz * 2147483647 ->
  forall pr pf src rg l, exists start,
  whole_init t g 32 (new_sim (wgrid t g cz) rg l) = Ok start /\
  (forall i j, on_grid start i j -> - H <= (terrain start i j : Z) <= H) /\
  forall chk wr fs, exists w' N new,
    (forall fuel, (N <= fuel)%nat ->
       (exists fs', soil_evolution k t to_ticks g cz b P pr pf src steps lines fuel chk wr traj rg l fs =
          Ok (w', fs') /\ (wr = false -> fs' = fs)) /\
       (chk = false \/ ~ In WRemoved new -> wrun k t to_ticks g cz b P lines fuel ps start = Ok w')) /\
    check_soil (A := ZNum (wunits t)) (p_tol P) (fst w') = Ok (fst w', true) /\
    wlog (fst w') = (l ++ new)%list /\ total_soil (fst w') <= total_soil start /\
    (total_soil (fst w') = total_soil start <-> ~ In WRemoved new) /\
    (chk = true -> In WRemoved new -> In WVolume new) /\
    (forall i j, on_grid (fst w') i j -> - H <= (terrain (fst w') i j : Z)).
Proof. exact evolution_whole. Qed.
Print Assumptions C59_whole.

(** The default run of the example program needs no hypothesis but enough fuel; [o] is the
    angle of its bucket. No height is ever below -5.63 m. *)
Theorem C59_default :
  forall o lines, grid_fuel ex_g <= Z.of_nat lines ->
  exists ps, stepped (K := FltR) sin cos ex_g ex_b (ex_traj o) (Z.to_nat 5001) = Ok ps /\
  (N.of_nat (List.length ps) <= 5002)%N /\
  forall to_ticks pr pf src rg l, exists start,
  whole_init ex_t ex_g 32 (new_sim (wgrid ex_t ex_g ex_cz) rg l) = Ok start /\
  (forall i j, on_grid start i j -> Z.abs (terrain start i j : Z) <= 563 * ex_cz) /\
  forall chk wr fs, exists w' N new,
    (forall fuel, (N <= fuel)%nat ->
       (exists fs', soil_evolution Bucket ex_t to_ticks ex_g ex_cz ex_b ex_P pr pf src (Z.to_nat 5001) lines
          fuel chk wr (ex_traj o) rg l fs = Ok (w', fs') /\ (wr = false -> fs' = fs)) /\
       (chk = false \/ ~ In WRemoved new ->
        wrun Bucket ex_t to_ticks ex_g ex_cz ex_b ex_P lines fuel ps start = Ok w')) /\
    check_soil (A := ZNum (wunits ex_t)) (p_tol ex_P) (fst w') = Ok (fst w', true) /\
    wlog (fst w') = (l ++ new)%list /\ total_soil (fst w') <= total_soil start /\
    (total_soil (fst w') = total_soil start <-> ~ In WRemoved new) /\
    (chk = true -> In WRemoved new -> In WVolume new) /\
    (forall i j, on_grid (fst w') i j -> -563 * ex_cz <= (terrain (fst w') i j : Z)).
Proof. exact ex_evolution. Qed.
Print Assumptions C59_default.

(** With write_outputs, from a directory without files of a former run: the files are numbered
    from 0, the last ones hold the state at the end, no other file changes. *)
Theorem C59_files :
  forall k t to_ticks g cz b P pr pf src steps lines fuel chk traj rg l fs w' fs' ps,
  soil_evolution k t to_ticks g cz b P pr pf src steps lines fuel chk true traj rg l fs = Ok (w', fs') ->
  stepped (K := FltR) sin cos g b traj steps = Ok ps ->
  (N.of_nat (List.length ps) <= 100000)%N ->
  let dir := results_dir src in
  let stem := (match k with Bucket => "bucket" | Blade => "blade" end)%string in
  taken fs dir "terrain" 0 -> taken fs dir stem 0 ->
  let last := (N.of_nat (List.length ps) - 1)%N in
  fs' (file_name dir "terrain" last) = Some (terrain_text pr (fst w')) /\
  fs' (file_name dir "body_soil" last) = Some (body_soil_text pr (fst w')) /\
  fs' (file_name dir stem last) =
    Some (body_text (K := FltR) (wgeom k t to_ticks g b P lines) k pf (at_pose b) (snd w')) /\
  (forall i, (i <= last)%N -> fs' (file_name dir "terrain" i) <> None /\
     fs' (file_name dir "body_soil" i) <> None /\ fs' (file_name dir stem i) <> None) /\
  (forall f, (forall i, (i <= last)%N -> f <> file_name dir "terrain" i /\
     f <> file_name dir "body_soil" i /\ f <> file_name dir stem i) -> fs' f = fs f).
Proof. exact evolution_files. Qed.
Print Assumptions C59_files.
(** The default run meets the hypotheses. *)
Example C59_files_example : forall o lines, grid_fuel ex_g <= Z.of_nat lines ->
  forall to_ticks pr pf src rg l,
  taken (fun _ => None) (results_dir src) "terrain" 0 /\
  taken (fun _ => None) (results_dir src) "bucket" 0 /\
  exists ps w' fs' fuel, stepped (K := FltR) sin cos ex_g ex_b (ex_traj o) (Z.to_nat 5001) = Ok ps /\
  (N.of_nat (List.length ps) <= 100000)%N /\
  soil_evolution Bucket ex_t to_ticks ex_g ex_cz ex_b ex_P pr pf src (Z.to_nat 5001) lines
    fuel true true (ex_traj o) rg l (fun _ => None) = Ok (w', fs').
Proof.
  intros o lines Hl to_ticks pr pf src rg l.
  split; [apply taken_empty|]. split; [apply taken_empty|].
  destruct (ex_evolution o lines Hl) as (ps & E & L & R).
  destruct (R to_ticks pr pf src rg l) as (start & _ & _ & Q).
  destruct (Q true true (fun _ => None)) as (w' & N & new & T & _).
  destruct (T N (Nat.le_refl N)) as ((fs' & F & _) & _).
  exists ps, w', fs', N. split; [exact E|]. split; [|exact F].
  eapply N.le_trans; [exact L|discriminate].
Qed.
