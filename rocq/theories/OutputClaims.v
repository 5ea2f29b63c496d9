(** The files of the default run of the example program. *)
From Coq Require Import Reals ZArith NArith List Bool String Lia.
From Verif Require Import Outcome Num Base Flt FltR FltRFacts State Spec Spec2
  ModelTypes ModelGeometry ModelBodySoil ModelBodyPos ModelUtils ModelStep ModelRaster ModelWhole
  ModelFiles ModelExample ModelCheckLoop ModelOutputs SpecGeo PoseProofs TypesProofs InsideProofs
  GeoClaims CheckProofs WholeProofs WholeClaims FilesProofs FilesClaims ExampleProofs ExampleLoop
  ExampleRun Demo DemoFacts CheckLoopProofs CheckLoopClaims OutputProofs.
Import ListNotations.

Section Length.
  Context {K : flt}.
  Variables (sn cs : df K -> df K).

  Lemma time_loop_length (g : ggrid K) traj cc dt_int fuel : forall time dt ps ts,
    time_loop sn cs g traj cc dt_int fuel time dt = Ok (ps, ts) ->
    (List.length ps = List.length ts /\ List.length ts <= fuel)%nat.
  Proof.
    induction fuel as [|fuel IH]; intros time dt ps ts E; cbn [time_loop] in E; [discriminate|].
    destruct (_ <! _)%flt in E.
    - apply bind_ok in E as (kk & _ & E). cbv zeta in E.
      apply bind_ok in E as (p & _ & E). apply bind_ok in E as (d & _ & E).
      apply bind_ok in E as ([ps1 ts1] & E1 & E). apply IH in E1 as [L1 L2].
      inversion E; subst. cbn [List.length]. lia.
    - inversion E; subst. cbn. lia.
  Qed.
End Length.

Lemma stepped_length {K : flt} sn cs (g : ggrid K) b traj fuel q :
  stepped sn cs g b traj fuel = Ok q -> (List.length q <= S fuel)%nat.
Proof.
  unfold stepped. intros E. apply bind_ok in E as ([ps ts] & E & Q). inversion Q; subst. clear Q.
  rewrite firstn_length.
  destruct (plan_shape _ _ _ _ _ _ _ _ E) as (ps' & ts' & p0 & pn & -> & -> & _ & _ & L).
  apply time_loop_length in L as [_ L]. rewrite app_length. cbn [List.length]. lia.
Qed.

Open Scope string_scope.

(** The default run with all its checks and files, in a directory without files of a former run. *)
Lemma ex_files o lines : (grid_fuel ex_g <= Z.of_nat lines)%Z ->
  exists ps, rstepped ex_g ex_b (ex_traj o) (Z.to_nat 5001) = Ok ps /\
  (N.of_nat (List.length ps) <= 5002)%N /\
  forall to_ticks noise rg l, (forall table i j, (Z.abs (noise table i j) <= 100 * ex_t)%Z) ->
  forall pr pf src fs, taken fs (results_dir src) "terrain" 0 -> taken fs (results_dir src) "bucket" 0 ->
  let wg := wgrid ex_t ex_g ex_cz in
  let start := init (A := ZNum (wunits ex_t)) wg noise (new_sim wg rg l) in
  let W := wgeom Bucket ex_t to_ticks ex_g ex_b ex_P lines in
  let loop := main_loop (K := FltR) W wg ex_P Bucket pr pf src (at_pose ex_b) in
  exists v N, init_volume wg start = Ok v /\
  forall fuel, (N <= fuel)%nat -> exists w' fs',
    loop fuel true true v (map Some ps) (start, None) fs = Ok (w', fs') /\
    forall i, (i < List.length ps)%nat -> exists wi,
      loop fuel true false v (firstn (S i) (map Some ps)) (start, None) fs = Ok (wi, fs) /\
      fs' (file_name (results_dir src) "terrain" (N.of_nat i)) = Some (terrain_text pr (fst wi)) /\
      fs' (file_name (results_dir src) "body_soil" (N.of_nat i)) = Some (body_soil_text pr (fst wi)) /\
      fs' (file_name (results_dir src) "bucket" (N.of_nat i)) =
        Some (bucket_text (K := FltR) pf
          (let b := at_pose ex_b (snd wi) in calc_body_corner_pos (K := FltR) (pos_ b) (ori_ b) b)).
Proof.
  intros Hl. destruct (ex_checked o lines Hl) as (ps & E & R).
  exists ps. split; [exact E|]. assert (L : (N.of_nat (List.length ps) <= 5002)%N).
  { apply stepped_length in E. lia. }
  split; [exact L|]. intros to_ticks noise rg l Hn pr pf src fs T1 T2 wg start W loop.
  destruct (R to_ticks noise rg l Hn) as (v & Ev & _ & w' & m & n & new & N & Q & _).
  exists v, N. split; [exact Ev|]. intros fuel Hf. specialize (Q fuel Hf).
  assert (C : loop fuel true false v (map Some ps) (start, None) fs = Ok (w', fs)).
  { apply loop_checked. eexists. exact Q. }
  apply (loop_writes W wg ex_P Bucket pr pf src (at_pose ex_b) fuel true v _ _ fs) in C as (fs' & C).
  exists w', fs'. split; [exact C|].
  apply (loop_files W wg ex_P Bucket pr pf src (at_pose ex_b) fuel true v _ _ _ _ _ 0 0) in C as [C _];
    [|rewrite map_length; lia|rewrite map_length; lia|exact T1|exact T2].
  intros i Hi. destruct (C i ltac:(rewrite map_length; exact Hi)) as (wi & C1 & C2 & C3 & C4).
  exists wi. split; [exact C1|]. split; [exact C2|]. split; [exact C3|exact C4].
Qed.

Lemma taken_empty path stem : taken (fun _ => None) path stem 0.
Proof. split; [intros m M; lia|reflexivity]. Qed.

Lemma box_files (pr : printer N) (pf : R -> string) src :
  taken (fun _ => None) (results_dir src) "terrain" 0 /\
  taken (fun _ => None) (results_dir src) "bucket" 0 /\
  exists w' fs',
    main_loop (A := N) (K := FltR) box_geom demo_grid box_params Bucket pr pf src (fun _ => ex_b) demo_fuel
      true true 405 [0%Z; 1%Z] box_start (fun _ => None) = Ok (w', fs') /\ wlog (fst w') <> [].
Proof.
  split; [apply taken_empty|]. split; [apply taken_empty|].
  assert (T : match checked_run (A := N) box_geom demo_grid box_params demo_fuel 405 [0%Z; 1%Z] box_start with
    | Ok (w, _) => negb (Nat.eqb (List.length (wlog (fst w))) 0) | _ => false end = true)
    by (vm_compute; reflexivity).
  destruct (checked_run (A := N) box_geom demo_grid box_params demo_fuel 405 [0%Z; 1%Z] box_start)
    as [[w' a]| |] eqn:E; [|discriminate|discriminate].
  clear -E T.
  pose proof (proj2 (loop_checked (A := N) (K := FltR) box_geom demo_grid box_params Bucket pr pf src
    (fun _ => ex_b) demo_fuel 405 [0%Z; 1%Z] (fun _ => None) box_start w') (ex_intro _ a E)) as C.
  pose proof (proj2 (loop_writes (A := N) (K := FltR) box_geom demo_grid box_params Bucket pr pf src
    (fun _ => ex_b) demo_fuel true 405 [0%Z; 1%Z] box_start (fun _ => None) (fun _ => None) w') C) as D.
  destruct D as (fs' & D). exists w', fs'. split; [exact D|].
  intros Q. rewrite Q in T. discriminate T.
Qed.
