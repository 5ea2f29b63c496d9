(** Properties of the log and of the Checks, which are inert, and of the members that one Step
    leaves to the next. Statements only; the proofs are in LogProofs.v, LogClaims.v, LogAgain.v
    and FlagProofs.v.

    [same_but_log s s'] says that all the members but the log are equal, the generator
    included; [of_step] holds for the three warnings that Step can write, not for those of
    Check. The arithmetic [A] is any: the exact one, and the one of the program. *)
From Coq Require Import Reals ZArith NArith Arith List Bool String.
From Verif Require Import Outcome Num Base Flt FltR State Spec Spec2
  ModelTypes ModelGeometry ModelBodySoil ModelBodyPos ModelUtils ModelStep ModelRaster ModelNoise
  ModelWhole ModelFiles ModelExample ModelCheckLoop ModelOutputs ModelEvolution SpecGeo PoseProofs
  TypesProofs InsideProofs GeoClaims WholeClaims ExampleProofs ExampleLoop ExampleRun Demo DemoFacts
  CheckLoopClaims OutputProofs OutputClaims EvolutionClaims LogProofs LogClaims
  LogAgain FlagProofs.
Import ListNotations.
Open Scope Z_scope.

(** ** C60 *)
(** Steps never read the log: they append the same warnings of Step to any log, and do the same
    to all the rest. *)
Theorem C60_log :
  forall (A : Num) (G : geom A) g P fuel ps (s1 s2 : sim A) old w1, same_but_log s1 s2 ->
  run G g P fuel ps (s1, old) = Ok w1 ->
  exists w2 new, run G g P fuel ps (s2, old) = Ok w2 /\
    same_but_log (fst w1) (fst w2) /\ snd w2 = snd w1 /\
    wlog (fst w1) = (wlog s1 ++ new)%list /\ wlog (fst w2) = (wlog s2 ++ new)%list /\
    Forall (fun w => of_step w = true) new.
Proof. exact @run_any_log. Qed.
Print Assumptions C60_log.
(** Two Steps that write a warning, on two logs. *)
Example C60_log_example :
  same_but_log (fst box_start) (warn (fst box_start) WSoil) /\
  exists w1, run (A := N) box_geom demo_grid box_params demo_fuel [0; 1] box_start = Ok w1 /\
  In WRemoved (wlog (fst w1)).
Proof.
  split; [repeat split|].
  assert (T : match run (A := N) box_geom demo_grid box_params demo_fuel [0; 1] box_start with
    | Ok w => existsb (fun x => match x with WRemoved => true | _ => false end) (wlog (fst w))
    | _ => false end = true) by (vm_compute; reflexivity).
  destruct (run (A := N) box_geom demo_grid box_params demo_fuel [0; 1] box_start) as [w1| |];
    [|discriminate T|discriminate T].
  exists w1. split; [reflexivity|]. apply existsb_exists in T as (x & I & X).
  destruct x; try discriminate X. exact I.
Qed.

(** The Checks do not read the log either: their answers are the same, and they only append
    their own warnings. *)
Theorem C60_check :
  forall (A : Num) g (P : params A) v (s1 s2 s1' : sim A) ab, same_but_log s1 s2 ->
  check g P v s1 = Ok (s1', ab) ->
  exists s2' new, check g P v s2 = Ok (s2', ab) /\ same_but_log s1' s2' /\ same_but_log s1 s1' /\
    wlog s1' = (wlog s1 ++ new)%list /\ wlog s2' = (wlog s2 ++ new)%list /\
    Forall (fun w => of_step w = false) new.
Proof. exact @check_any_log. Qed.
Print Assumptions C60_check.
(** A second Check gives the answers of the first. *)
Theorem C60_check_again :
  forall (A : Num) g (P : params A) v (s s' : sim A) ab, check g P v s = Ok (s', ab) ->
  exists s'', check g P v s' = Ok (s'', ab) /\ same_but_log s s''.
Proof. exact @check_again. Qed.
Print Assumptions C60_check_again.
(** A Check that answers false. *)
Example C60_check_example : exists s',
  check (A := N) demo_grid box_params 404 (fst box_start) = Ok (s', (false, true)) /\ wlog s' = [WVolume].
Proof.
  assert (T : match check (A := N) demo_grid box_params 404 (fst box_start) with
    | Ok (s', (false, true)) => match wlog s' with [WVolume] => true | _ => false end
    | _ => false end = true) by (vm_compute; reflexivity).
  destruct (check (A := N) demo_grid box_params 404 (fst box_start)) as [[s' [[|] [|]]]| |]; try discriminate T.
  exists s'. split; [reflexivity|].
  destruct (wlog s') as [|[] [|? ?]]; try discriminate T. reflexivity.
Qed.

(** The main loop of the example program with its Checks, whatever they answer: without them it
    ends too, with the same files and the same state but for the warnings of the Checks. *)
Theorem C60_checks :
  forall (A : Num) (G : geom A) g P (K : flt) k (pr : printer A) (pf : sf K -> string) src bp fuel wr v v' ps
    w w' fs fs',
  main_loop G g P k pr pf src bp fuel true wr v ps w fs = Ok (w', fs') ->
  exists w2 new, main_loop G g P k pr pf src bp fuel false wr v' ps w fs = Ok (w2, fs') /\
    same_but_log (fst w') (fst w2) /\ snd w2 = snd w' /\
    wlog (fst w') = (wlog (fst w) ++ new)%list /\
    wlog (fst w2) = (wlog (fst w) ++ filter of_step new)%list.
Proof. exact @loop_checks_inert. Qed.
Print Assumptions C60_checks.
(** Two turns that lose soil, after which CheckVolume answers false. *)
Example C60_checks_example : forall (pr : printer N) (pf : R -> string) src, exists w' fs',
  main_loop (A := N) (K := FltR) box_geom demo_grid box_params Bucket pr pf src (fun _ => ex_b) demo_fuel
    true true 405 [0; 1] box_start (fun _ => None) = Ok (w', fs') /\ wlog (fst w') <> [].
Proof. intros pr pf src. exact (proj2 (proj2 (box_files pr pf src))). Qed.

(** The whole example program: check_outputs changes neither the files nor the soil. C60_default
    gives a case. *)
Theorem C60_evolution :
  forall k t to_ticks g cz b P pr pf src steps lines fuel wr traj rg l fs w' fs',
  soil_evolution k t to_ticks g cz b P pr pf src steps lines fuel true wr traj rg l fs = Ok (w', fs') ->
  exists w2 new,
    soil_evolution k t to_ticks g cz b P pr pf src steps lines fuel false wr traj rg l fs = Ok (w2, fs') /\
    same_but_log (fst w') (fst w2) /\ snd w2 = snd w' /\
    wlog (fst w') = (l ++ new)%list /\ wlog (fst w2) = (l ++ filter of_step new)%list.
Proof. exact evolution_checks_inert. Qed.
Print Assumptions C60_evolution.

(** Its default run. *)
Theorem C60_default :
  forall o lines, grid_fuel ex_g <= Z.of_nat lines ->
  forall to_ticks pr pf src rg l wr fs, exists N, forall fuel, (N <= fuel)%nat ->
  let prog chk := soil_evolution Bucket ex_t to_ticks ex_g ex_cz ex_b ex_P pr pf src (Z.to_nat 5001) lines
    fuel chk wr (ex_traj o) rg l fs in
  exists w' w2 fs' new, prog true = Ok (w', fs') /\ prog false = Ok (w2, fs') /\
    same_but_log (fst w') (fst w2) /\ snd w2 = snd w' /\
    wlog (fst w') = (l ++ new)%list /\ wlog (fst w2) = (l ++ filter of_step new)%list.
Proof. exact ex_checks_inert. Qed.
Print Assumptions C60_default.

(** ** C61 *)
(** A Step that moves the body does not read equilibrium_ and impact_area_: with any values it
    gives the same outcome, these two members included. *)
Theorem C61_step :
  forall (A : Num) (G : geom A) g P fuel p (s : sim A) old b a,
  fst (g_moved G old p) = true -> (1 <= p_max_iterations P)%nat ->
  step G g P fuel p (set_equilibrium (set_impact_area s a) b, old) = step G g P fuel p (s, old).
Proof. exact @step_any_flag. Qed.
Print Assumptions C61_step.
(** In any sequence of Steps, all the other members are the same. *)
Theorem C61_run :
  forall (A : Num) (G : geom A) g P fuel ps (s : sim A) old b a w,
  (1 <= p_max_iterations P)%nat -> run G g P fuel ps (s, old) = Ok w ->
  exists w', run G g P fuel ps (set_equilibrium (set_impact_area s a) b, old) = Ok w' /\
    snd w' = snd w /\ terrain (fst w') = terrain (fst w) /\ body (fst w') = body (fst w) /\
    body_soil (fst w') = body_soil (fst w) /\ records (fst w') = records (fst w) /\
    body_area (fst w') = body_area (fst w) /\ relax_area (fst w') = relax_area (fst w) /\
    rng (fst w') = rng (fst w) /\ wlog (fst w') = wlog (fst w).
Proof. exact @run_any_flag. Qed.
Print Assumptions C61_run.
Example C61_example :
  fst (g_moved box_geom (-1) 0) = true /\ (1 <= p_max_iterations box_params)%nat /\
  exists w, run (A := N) box_geom demo_grid box_params demo_fuel [0; 1] box_start = Ok w /\
    In WRemoved (wlog (fst w)).
Proof.
  split; [reflexivity|]. split; [apply le_n|]. exact (proj2 C60_log_example).
Qed.

(** relax_area_ is read: a pile outside the area of the body falls or not according to the area
    that the previous Step left. *)
Theorem C61_relax_area_refuted :
  exists (G : geom N) g P fuel p (s : sim N) old a1 a2 w1 w2,
  step G g P fuel p (set_relax_area s a1, old) = Ok (w1, true) /\
  step G g P fuel p (set_relax_area s a2, old) = Ok (w2, true) /\
  (terrain (fst w1) 7 7 : Z) = 60 /\ (terrain (fst w2) 7 7 : Z) = 90.
Proof.
  exists box_geom, demo_grid, box_params, demo_fuel, 0, (set_t (fst box_start) 7 7 90), (-1),
    (mkArea 2 8 2 8), (mkArea 2 7 2 7).
  assert (T : forall (o : outcome (world box_geom * bool)) (z : Z),
    match o with Ok (w, true) => ((terrain (fst w) 7 7 : Z) =? z) | _ => false end = true ->
    exists w, o = Ok (w, true) /\ (terrain (fst w) 7 7 : Z) = z).
  { intros [[w [|]]| |] z H; try discriminate H. exists w. split; [reflexivity|]. apply Z.eqb_eq. exact H. }
  destruct (T (step (A := N) box_geom demo_grid box_params demo_fuel 0
    (set_relax_area (set_t (fst box_start) 7 7 90) (mkArea 2 8 2 8), -1)) 60) as (w1 & E1 & T1);
    [vm_compute; reflexivity|].
  destruct (T (step (A := N) box_geom demo_grid box_params demo_fuel 0
    (set_relax_area (set_t (fst box_start) 7 7 90) (mkArea 2 7 2 7), -1)) 90) as (w2 & E2 & T2);
    [vm_compute; reflexivity|].
  exists w1, w2. split; [exact E1|]. split; [exact E2|]. split; assumption.
Qed.
Print Assumptions C61_relax_area_refuted.
