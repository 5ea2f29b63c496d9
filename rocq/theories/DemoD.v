(** A concrete run of the program in binary32 on a grid of cells of 0.125. *)
From Coq Require Import ZArith List Bool Lia.
From Coq Require Import Floats.SpecFloat.
From Verif Require Import Outcome Num State Base ModelBodySoil ModelBodyPos ModelUtils ModelStep
  Flt FltB ModelTypes ModelGeometry ModelProgram Spec Spec2 SpecSafe ProgramProofs DemoB
  SpecBinary BinaryInit.
Import ListNotations.
Open Scope Z_scope.

(** 11 x 11 x 11 cells; a bucket 0.25 wide, high and long; noise of amplitude 30;
    tolerance 1e-5. *)
Definition demoD_grid : ggrid FltB :=
  match new_grid (slit 625 3) (slit 625 3) (slit 625 3) (slit 125 3) (slit 125 3) with
  | Built g => g
  | _ => mkGGrid 0 0 0 zero zero zero zero [] [] []
  end.
Definition demoD_body : gbody FltB :=
  match new_body [zero; zero; zero] [zero; zero; zero] [zero; zero; slit (-25) 2]
    [slit 25 2; zero; slit (-25) 2] (slit 25 2) with
  | Built b => b
  | _ => mkGBody (mkVec zero zero zero) (mkVec zero zero zero) (mkVec zero zero zero) zero
           (mkVec zero zero zero) upright
  end.
Definition demoD_geom : geom (NumOf FltB) :=
  program ABucket demoD_grid demoD_body (slit 1 5) (cell_buffer demoB_param) 1000.
Definition demoD_params : params (NumOf FltB) :=
  soil_params demoB_tan demoD_grid demoB_param (slit 1 5).
Definition demoD_poses : list (ppose (K := FltB)) :=
  [ (mkVec zero zero (slit 125 3), upright);
    (mkVec (slit 125 3) zero (slit 125 3), upright) ].
Definition demoD_old : ppose (K := FltB) := (pos_ demoD_body, ori_ demoD_body).
Notation demoD_init :=
  (program_init demoD_grid (slit 30 0) (new_sim (soil_grid demoD_grid) demoB_rng [])).

(** The cell height is [2 ^ 146] ticks. No terrain is below the grid, and its sum is 14
    cells; at the end of the run it is the same, and there is soil at three places of the
    bucket. *)
Definition demoD_good (s : sim (NumOf FltB)) : bool :=
  forallb (fun c => let x := terrain s (fst c) (snd c) in
      valid_binary 24 128 x &&
      match x with S754_zero _ | S754_finite _ _ _ => true | _ => false end &&
      (- (5 * 2 ^ 146) <=? ticks32 x)) (all_cells s) &&
  (total_soil (read s) =? 14 * 2 ^ 146).
Definition demoD_end (s : sim (NumOf FltB)) : outcome (world demoD_geom) :=
  run demoD_geom (soil_grid demoD_grid) demoD_params 100 demoD_poses (s, demoD_old).
Definition demoD_ended (x : outcome (world demoD_geom)) : bool :=
  match x with
  | Ok y => (length (records (fst y)) =? 3)%nat && (total_soil (read (fst y)) =? 14 * 2 ^ 146)
  | _ => false
  end.
Definition demoD_check (x : outcome (sim (NumOf FltB))) : bool :=
  match x with
  | Ok s => (nx s =? 11) && (ny s =? 11) && demoD_good s && demoD_ended (demoD_end s)
  | _ => false
  end.
Lemma demoD_checked : demoD_check demoD_init = true.
Proof. vm_cast_no_check (@eq_refl bool true). Qed.

Definition vec32_b (v : vec spec_float) : bool :=
  valid_binary 24 128 (vx v) && valid_binary 24 128 (vy v) && valid_binary 24 128 (vz v).
Lemma demoD_poses_check :
  poses_in demoD_grid demoD_geom demoD_poses &&
  forallb vec32_b (positions demoD_grid demoD_geom demoD_poses) = true.
Proof. vm_cast_no_check (@eq_refl bool true). Qed.

(** ** The hypotheses of the theorems *)
Lemma demoD_init_ok : exists s, demoD_init = Ok s /\ nx s = 11 /\ ny s = 11 /\
  demoD_good s = true /\ demoD_ended (demoD_end s) = true.
Proof.
  pose proof demoD_checked as H. destruct demoD_init as [s| |]; try discriminate H.
  exists s. split; [reflexivity|]. unfold demoD_check in H.
  apply andb_prop in H as [H H4]. apply andb_prop in H as [H H3]. apply andb_prop in H as [H1 H2].
  split; [exact (proj1 (Z.eqb_eq _ _) H1)|]. split; [exact (proj1 (Z.eqb_eq _ _) H2)|].
  split; [exact H3|exact H4].
Qed.

Lemma demoD_finite s : demoD_good s = true ->
  (forall i j, inb s i j = true ->
     finite32 (terrain s i j) /\ - (5 * 2 ^ 146) <= ticks32 (terrain s i j)) /\
  total_soil (read s) = 14 * 2 ^ 146.
Proof.
  unfold demoD_good. rewrite andb_true_iff, Z.eqb_eq. intros [H1 H2]. split; [|exact H2].
  intros i j Hij. rewrite forallb_forall in H1.
  assert (Hin : In (i, j) (all_cells s)).
  { unfold all_cells. apply in_area_cells. unfold inb in Hij.
    rewrite !andb_true_iff, !Z.leb_le, !Z.ltb_lt in Hij. unfold in_area. cbn. lia. }
  specialize (H1 _ Hin). cbn [fst snd] in H1.
  rewrite !andb_true_iff, Z.leb_le in H1. destruct H1 as [[V F] B].
  split; [|exact B]. split; [exact V|]. destruct (terrain s i j); try discriminate; exact I.
Qed.

Lemma demoD_poses_ok :
  poses_ok (soil_grid demoD_grid) demoD_geom (fun p => In p demoD_poses)
    (fun x => In x (positions demoD_grid demoD_geom demoD_poses)).
Proof.
  apply (poses_in_ok demoD_grid demoD_geom).
  exact (proj1 (andb_prop _ _ demoD_poses_check)).
Qed.

Lemma demoD_near32 x : In x (positions demoD_grid demoD_geom demoD_poses) -> vec32 x.
Proof.
  pose proof (proj2 (andb_prop _ _ demoD_poses_check)) as H.
  rewrite forallb_forall in H. intros Hx. specialize (H x Hx).
  unfold vec32_b in H. rewrite !andb_true_iff in H. unfold vec32. tauto.
Qed.

Lemma demoD_pose32 p : In p demoD_poses -> pose32 p.
Proof. intros [<-|[<-|[]]]; vm_compute; tauto. Qed.

Lemma demoD_grid_built :
  new_grid (K := FltB) (slit 625 3) (slit 625 3) (slit 625 3) (slit 125 3) (slit 125 3) =
  Built demoD_grid.
Proof. vm_cast_no_check (@eq_refl (built (ggrid FltB)) (Built demoD_grid)). Qed.
Lemma demoD_dh_max : dh_max demoB_tan demoD_grid demoB_param = slit 125 3.
Proof. vm_cast_no_check (@eq_refl spec_float (slit 125 3)). Qed.
Lemma demoD_size_ok : size_ok (soil_grid demoD_grid) demoD_params.
Proof. vm_compute. repeat split; discriminate. Qed.
Lemma demoD_fits s : demoD_init = Ok s -> nx s = 11 -> ny s = 11 -> demoD_good s = true ->
  fits 146 (5 * 2 ^ 146) (14 * 2 ^ 146) (soil_grid demoD_grid) s.
Proof.
  intros E N1 N2 Hg. destruct (demoD_finite s Hg) as [Hf Ht].
  apply (program_init_fits 146 (5 * 2 ^ 146) (14 * 2 ^ 146) demoD_grid (slit 30 0) demoB_rng [] s E).
  - discriminate.
  - discriminate.
  - intros i j Hi. apply (Hf i j Hi).
  - rewrite Ht. apply Z.le_refl.
  - rewrite N1, N2. change (g_half_z demoD_grid) with 5. lia.
Qed.
