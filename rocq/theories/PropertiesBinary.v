(** C50: the program in binary32 on a grid whose cell height is a power of two. *)
From Coq Require Import ZArith List Bool Lia.
From Coq Require Import Floats.SpecFloat.
From Verif Require Import Outcome Num State Base ModelBodySoil ModelBodyPos ModelUtils ModelStep
  Flt FltB ModelTypes ModelGeometry ModelProgram Spec Spec2 SpecSafe ProgramProofs DemoB DemoD
  SpecBinary BinaryProofs BinaryInit.
Import ListNotations.
Open Scope Z_scope.

(** ** C50 *)
(** A sequence of calls of Step in binary32 and the same sequence in exact integers end, take
    the same decisions, and end in the same state. So no rounding error is made: the heights
    remain multiples of the cell height, the state remains consistent, and the amount of soil
    is the same or the program warns. *)
Theorem C50_binary32_exact :
  forall w d t (g : grid_t (NumOf FltB)) (P : params (NumOf FltB)) (G : geom (NumOf FltB))
    legal near ps s old,
  dyadic w g P -> size_ok g P -> poses_ok g G legal near -> walls_fit w d g G legal near ->
  heights_ok w g s -> fits w d t g s ->
  state_ok (read_grid g) (read_geom G) legal near (read s, old) -> Forall legal ps ->
  exists s1 s1' old1,
    (exists fuel0, forall fuel, (fuel0 <= fuel)%nat ->
       run G g P fuel ps (s, old) = Ok (s1, old1) /\
       run (read_geom G) (read_grid g) (read_params g P) fuel ps (read s, old) =
         Ok (s1', old1)) /\
    agree (read s1) s1' /\ heights_ok w g s1 /\ fits w d t g s1 /\
    state_ok (read_grid g) (read_geom G) legal near (read s1, old1) /\
    balanced (read s) (read s1).
Proof.
  intros w d t g P G legal near ps s old HD HS HP HW.
  exact (run32 w g P HD d t G legal near HS HP HW ps s old).
Qed.
Print Assumptions C50_binary32_exact.

(** The whole program: the constructor of Grid is given a cell height that is a power of two
    and a size that is a multiple of it, Init makes the terrain, then Step is called. *)
Theorem C50_program_exact :
  forall w hz d t k sx sy sz cxy cz (g : ggrid FltB) b tan prm tol lines
    legal near amp r l s old ps,
  let G := program k g b tol (cell_buffer prm) lines in
  let P := soil_params tan g prm tol in
  2 <= w <= 250 -> finite32 cz -> ticks32 cz = 2 ^ w ->
  finite32 sz -> ticks32 sz = hz * 2 ^ w -> 1 <= hz < 2 ^ 20 - 1 ->
  finite32 tol -> 4 * ticks32 tol <= 2 ^ w -> (hz + 1) * 2 ^ w <= (2 ^ 23 - 1) * ticks32 tol ->
  new_grid (K := FltB) sx sy sz cxy cz = Built g ->
  finite32 (dh_max tan g prm) -> 0 <= ticks32 (dh_max tan g prm) <= (2 ^ 20 - 1) * 2 ^ w ->
  size_ok (soil_grid g) P -> poses_ok (soil_grid g) G legal near ->
  (forall p, legal p -> pose32 p) -> (forall x, near x -> vec32 x) -> Forall legal ps ->
  program_init g amp (new_sim (soil_grid g) r l) = Ok s ->
  (forall i j, inb s i j = true -> finite32 (terrain s i j)) ->
  hz * 2 ^ w <= d -> fits w d t (soil_grid g) s ->
  exists s1 old1,
    (exists fuel0, forall fuel, (fuel0 <= fuel)%nat ->
       run G (soil_grid g) P fuel ps (s, old) = Ok (s1, old1)) /\
    heights_ok w (soil_grid g) s1 /\
    state_ok (read_grid (soil_grid g)) (read_geom G) legal near (read s1, old1) /\
    balanced (read s) (read s1).
Proof. exact program32_built. Qed.
Print Assumptions C50_program_exact.

(** Cells of 0.125, a noisy terrain and a bucket that moves twice: the hypotheses hold. At the
    end there is soil at three places of the bucket, and the amount of soil is the same. *)
Example C50_example :
  finite32 (slit 125 3) /\ ticks32 (slit 125 3) = 2 ^ 146 /\
  finite32 (slit 625 3) /\ ticks32 (slit 625 3) = 5 * 2 ^ 146 /\
  finite32 (slit 1 5) /\ 4 * ticks32 (slit 1 5) <= 2 ^ 146 /\
  (5 + 1) * 2 ^ 146 <= (2 ^ 23 - 1) * ticks32 (slit 1 5) /\
  new_grid (K := FltB) (slit 625 3) (slit 625 3) (slit 625 3) (slit 125 3) (slit 125 3) =
    Built demoD_grid /\
  finite32 (dh_max demoB_tan demoD_grid demoB_param) /\
  0 <= ticks32 (dh_max demoB_tan demoD_grid demoB_param) <= (2 ^ 20 - 1) * 2 ^ 146 /\
  size_ok (soil_grid demoD_grid) demoD_params /\
  poses_ok (soil_grid demoD_grid) demoD_geom (fun p => In p demoD_poses)
    (fun x => In x (positions demoD_grid demoD_geom demoD_poses)) /\
  (forall p, In p demoD_poses -> pose32 p) /\
  (forall x, In x (positions demoD_grid demoD_geom demoD_poses) -> vec32 x) /\
  Forall (fun p => In p demoD_poses) demoD_poses /\
  exists s, demoD_init = Ok s /\
    (forall i j, inb s i j = true -> finite32 (terrain s i j)) /\
    fits 146 (5 * 2 ^ 146) (14 * 2 ^ 146) (soil_grid demoD_grid) s /\
    demoD_ended (demoD_end s) = true.
Proof.
  split; [vm_compute; auto|]. split; [reflexivity|]. split; [vm_compute; auto|].
  split; [reflexivity|]. split; [vm_compute; auto|]. split; [vm_compute; discriminate|].
  split; [vm_compute; discriminate|]. split; [exact demoD_grid_built|].
  rewrite demoD_dh_max. split; [vm_compute; auto|]. split; [vm_compute; split; discriminate|].
  split; [exact demoD_size_ok|].
  split; [exact demoD_poses_ok|]. split; [exact demoD_pose32|]. split; [exact demoD_near32|].
  split; [apply Forall_forall; auto|].
  destruct demoD_init_ok as (s & E & N1 & N2 & Hg & He). exists s. split; [exact E|].
  destruct (demoD_finite s Hg) as [Hf Ht]. split; [intros i j Hi; apply (Hf i j Hi)|].
  split; [exact (demoD_fits s E N1 N2 Hg)|exact He].
Qed.
