(** Properties of the program in any arithmetic, binary32 included. Statements only; the
    proofs are in SafeProofs.v and ProgramProofs.v. *)
From Coq Require Import ZArith List Bool.
From Coq Require Import Floats.SpecFloat.
From Verif Require Import Outcome Num State ModelBodySoil ModelBodyPos ModelUtils ModelStep
  Flt FltB ModelTypes ModelGeometry ModelRaster ModelProgram SpecSafe SafeProofs ProgramProofs DemoB.
Import ListNotations.
Open Scope Z_scope.

(** ** C47 *)
(** Whatever the operations on heights compute, Step has no undefined behaviour, and
    what it needs still holds afterwards. *)
Theorem C47_step_any_arithmetic :
  forall (A : Num) (g : grid_t A) (P : params A) (G : geom A) legal near fuel p w,
  arithmetic_ok g P -> size_ok g P -> poses_ok g G legal near ->
  memory_ok g G legal near w -> legal p ->
  (forall u, step G g P fuel p w <> UB u) /\
  (forall w' b, step G g P fuel p w = Ok (w', b) -> memory_ok g G legal near w').
Proof. exact @step_any. Qed.
Print Assumptions C47_step_any_arithmetic.

Theorem C47_run_any_arithmetic :
  forall (A : Num) (g : grid_t A) (P : params A) (G : geom A) legal near fuel ps w,
  arithmetic_ok g P -> size_ok g P -> poses_ok g G legal near ->
  memory_ok g G legal near w -> Forall legal ps ->
  (forall u, run G g P fuel ps w <> UB u) /\
  (forall w', run G g P fuel ps w = Ok w' -> memory_ok g G legal near w').
Proof. exact @run_any. Qed.
Print Assumptions C47_run_any_arithmetic.

(** From the constructor of SimOut and Init. *)
Theorem C47_start_any_arithmetic :
  forall (A : Num) (g : grid_t A) (P : params A) (G : geom A) legal near noise r l old,
  arithmetic_ok g P -> size_ok g P ->
  memory_ok g G legal near (init g noise (new_sim g r l), old).
Proof. exact @start_any. Qed.
Print Assumptions C47_start_any_arithmetic.

(** The program in binary32: after Init, no sequence of calls of Step with poses that
    keep the body inside the grid has undefined behaviour. *)
Theorem C47_binary32 :
  forall k (g : ggrid FltB) b tan prm tol lines fuel legal near ps amp r l s old,
  let G := program k g b tol (cell_buffer prm) lines in
  let P := soil_params tan g prm tol in
  b_ltb tol (S754_zero false) = false -> size_ok (soil_grid g) P ->
  poses_ok (soil_grid g) G legal near -> Forall legal ps ->
  program_init g amp (new_sim (soil_grid g) r l) = Ok s ->
  forall u, run G (soil_grid g) P fuel ps (s, old) <> UB u.
Proof. exact @program_binary32. Qed.
Print Assumptions C47_binary32.

(** A bucket that digs in a noisy terrain: the hypotheses hold, and the run ends with
    soil at twenty places of the bucket. *)
Example C47_example :
  b_ltb (slit 1 5) (S754_zero false) = false /\
  size_ok (soil_grid demoB_grid) (soil_params demoB_tan demoB_grid demoB_param (slit 1 5)) /\
  poses_ok (soil_grid demoB_grid) demoB_geom (fun p => In p demoB_poses)
    (fun x => In x (positions demoB_grid demoB_geom demoB_poses)) /\
  Forall (fun p => In p demoB_poses) demoB_poses /\
  summary (demoB_run demoB_poses) = Some (20%nat, [WLargeMove], 93952445).
Proof.
  split; [reflexivity|]. split; [exact demoB_size_ok|]. split; [exact demoB_poses_ok|].
  split; [apply Forall_forall; auto|exact demoB_summary].
Qed.

(** ** C48 *)
(** In binary32 the amount of soil is not conserved exactly, although no warning is
    sent. *)
Theorem C48_binary32_conservation_refuted :
  exists ps s p s' p',
  demoB_run [] = Built (Ok (s, p)) /\ demoB_run ps = Built (Ok (s', p')) /\
  ~ In WRemoved (wlog s') /\ exact_total s' <> exact_total s.
Proof. exact demoB_drift. Qed.
Print Assumptions C48_binary32_conservation_refuted.
