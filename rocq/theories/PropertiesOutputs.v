(** Properties of the main loop of the example program, with its checks and its files
    (ModelOutputs.v). Statements only; the proofs are in OutputProofs.v and OutputClaims.v.

    [taken fs path stem n]: among the files called [stem], the numbers below [n] exist and
    no other does. [body_text] is the text of the corners of the body in a pose. *)
From Coq Require Import Reals ZArith NArith List Bool String.
From Verif Require Import Outcome Num Base Flt FltR State Spec Spec2
  ModelTypes ModelGeometry ModelBodySoil ModelBodyPos ModelUtils ModelStep ModelRaster ModelWhole
  ModelFiles ModelExample ModelCheckLoop ModelOutputs SpecGeo PoseProofs TypesProofs InsideProofs
  GeoClaims FilesProofs FilesClaims ExampleProofs ExampleLoop ExampleRun Demo DemoFacts
  CheckLoopClaims OutputProofs OutputClaims.
Import ListNotations.
Open Scope string_scope.

(** ** C58 *)
(** Writing the files changes nothing in the simulation. *)
Theorem C58_writing_is_silent :
  forall (A : Num) (K : flt) G g P k (pr : printer A) (pf : sf K -> string) src bp fuel chk v ps w
    fs fs0 w',
  (exists fs', main_loop G g P k pr pf src bp fuel chk true v ps w fs = Ok (w', fs')) <->
  main_loop G g P k pr pf src bp fuel chk false v ps w fs0 = Ok (w', fs0).
Proof. exact @loop_writes. Qed.
Print Assumptions C58_writing_is_silent.

(** Without files, the loop is the sequence of Steps, or of Steps and Checks of C57. *)
Theorem C58_loop :
  forall (A : Num) (K : flt) G g P k (pr : printer A) (pf : sf K -> string) src bp fuel v ps fs w w',
  (main_loop G g P k pr pf src bp fuel false false v ps w fs = Ok (w', fs) <->
     run G g P fuel ps w = Ok w') /\
  (main_loop G g P k pr pf src bp fuel true false v ps w fs = Ok (w', fs) <->
     exists answers, checked_run G g P fuel v ps w = Ok (w', answers)).
Proof. intros. split; [apply loop_run|apply loop_checked]. Qed.
Print Assumptions C58_loop.

(** The files: number [n + i] (and [m + i] for the body) holds the state after [i + 1] turns
    of the loop; no other file changes. *)
Theorem C58_files :
  forall (A : Num) (K : flt) G g P k (pr : printer A) (pf : sf K -> string) src bp fuel chk v ps w
    fs w' fs' n m,
  main_loop G g P k pr pf src bp fuel chk true v ps w fs = Ok (w', fs') ->
  (n + N.of_nat (List.length ps) <= 100000)%N -> (m + N.of_nat (List.length ps) <= 100000)%N ->
  let dir := results_dir src in
  let stem := match k with Bucket => "bucket" | Blade => "blade" end in
  taken fs dir "terrain" n -> taken fs dir stem m ->
  (forall i, (i < List.length ps)%nat -> exists wi,
     main_loop G g P k pr pf src bp fuel chk false v (firstn (S i) ps) w fs = Ok (wi, fs) /\
     fs' (file_name dir "terrain" (n + N.of_nat i)) = Some (terrain_text pr (fst wi)) /\
     fs' (file_name dir "body_soil" (n + N.of_nat i)) = Some (body_soil_text pr (fst wi)) /\
     fs' (file_name dir stem (m + N.of_nat i)) = Some (body_text G k pf bp (snd wi))) /\
  (forall f, (forall i, (i < N.of_nat (List.length ps))%N ->
      f <> file_name dir "terrain" (n + i) /\ f <> file_name dir "body_soil" (n + i) /\
      f <> file_name dir stem (m + i)) -> fs' f = fs f).
Proof. exact @loop_files. Qed.
Print Assumptions C58_files.

(** Two turns that lose soil, with checks and files, from an empty directory. *)
Example C58_files_example : forall (pr : printer N) (pf : R -> string) src,
  taken (fun _ => None) (results_dir src) "terrain" 0 /\
  taken (fun _ => None) (results_dir src) "bucket" 0 /\
  exists w' fs',
    main_loop (A := N) (K := FltR) box_geom demo_grid box_params Bucket pr pf src (fun _ => ex_b) demo_fuel
      true true 405 [0%Z; 1%Z] box_start (fun _ => None) = Ok (w', fs') /\ wlog (fst w') <> [].
Proof. exact box_files. Qed.

(** The default run of the example program, in a directory without files of a former run: it
    makes at most 5002 Steps, and each of them leaves its three files. *)
Theorem C58_default :
  forall o lines, (grid_fuel ex_g <= Z.of_nat lines)%Z ->
  exists ps, stepped (K := FltR) sin cos ex_g ex_b (ex_traj o) (Z.to_nat 5001) = Ok ps /\
  (N.of_nat (List.length ps) <= 5002)%N /\
  forall to_ticks noise rg l, (forall table i j, (Z.abs (noise table i j) <= 100 * ex_t)%Z) ->
  forall pr pf src fs, taken fs (results_dir src) "terrain" 0 -> taken fs (results_dir src) "bucket" 0 ->
  let wg := wgrid ex_t ex_g ex_cz in
  let start := init (A := ZNum (wunits ex_t)) wg noise (new_sim wg rg l) in
  let W := wgeom Bucket ex_t to_ticks ex_g ex_b ex_P lines in
  let loop := main_loop (K := FltR) W wg ex_P Bucket pr pf src (at_pose ex_b) in
  exists v N, init_volume wg start = Ok v /\
  forall fuel, (N <= fuel)%nat -> exists w' fs',
    loop fuel true true v (map Some ps) (start, None) fs = Ok (w', fs') /\
    forall i, (i < List.length ps)%nat -> exists wi,
      loop fuel true false v (firstn (S i) (map Some ps)) (start, None) fs = Ok (wi, fs) /\
      fs' (file_name (results_dir src) "terrain" (N.of_nat i)) = Some (terrain_text pr (fst wi)) /\
      fs' (file_name (results_dir src) "body_soil" (N.of_nat i)) = Some (body_soil_text pr (fst wi)) /\
      fs' (file_name (results_dir src) "bucket" (N.of_nat i)) =
        Some (bucket_text (K := FltR) pf
          (let b := at_pose ex_b (snd wi) in calc_body_corner_pos (K := FltR) (pos_ b) (ori_ b) b)).
Proof. exact ex_files. Qed.
Print Assumptions C58_default.
