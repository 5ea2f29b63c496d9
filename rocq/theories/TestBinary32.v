(** The translated unit tests of the soil half, run in binary32. *)
From Coq Require Import ZArith List Bool.
From Coq Require Import Floats.SpecFloat.
From Verif Require Import Outcome Num State Flt FltB ModelTypes ModelGeometry ModelProgram
  TestLang TestCheckBody TestCheckSoil TestCheckTerrain TestCheckVolume
  TestIncludeNewBodyPos TestLocateIntersecting TestLocateUnstable TestMoveBodySoil
  TestMoveIntersectingBody TestMoveIntersectingBodySoil TestRelaxBodyCell TestRelaxBodySoil
  TestRelaxTerrain TestRelaxTerrainCell TestUpdateBody.
Import ListNotations.
Open Scope Z_scope.

(** Grid(1.0, 1.0, 1.0, 0.1, 0.1) of the tests. *)
Definition test_grid : ggrid FltB :=
  match new_grid (slit 1 0) (slit 1 0) (slit 1 0) (slit 1 1) (slit 1 1) with
  | Built g => g
  | _ => mkGGrid 0 0 0 s0 s0 s0 s0 [] [] []
  end.
(** The bucket of the tests, at the origin and without rotation. *)
Definition test_bucket : gbody FltB :=
  mkGBody (mkVec (slit 0 0) (slit 0 0) (slit 0 0)) (mkVec (slit 0 0) (slit 0 0) (slit (-5) 1))
    (mkVec (slit 7 1) (slit 0 0) (slit (-5) 1)) (slit 5 1)
    (mkVec (slit 0 0) (slit 0 0) (slit 0 0))
    (mkQuat (slit 1 0) (slit 0 0) (slit 0 0) (slit 0 0)).

(** EXPECT_NEAR(a, b, e): fabs(a - b) <= e in double. *)
Definition expect_near (e : df FltB) (a : sf FltB) (b : df FltB) : bool :=
  b_leb (SFabs (dsub (f := FltB) (wid (f := FltB) a) b)) e.

Definition b_run : list cmd -> option nat :=
  @run_test (NumOf FltB) (fun z => if z =? 0 then S754_zero false else slit z 5)
    (fun k => nth (Z.to_nat k) (g_vect_z test_grid) (d0 (K := FltB)))
    (fun i j z => calc_body_frame_pos i j z test_grid test_bucket)
    (fun x => let '(x, y, z) := x in mkVec x y z)
    (fun v => (vx v, vy v, vz v))
    (fun a b => if b_eqb a b then true else expect_near (dlit 1 5) a (wid (f := FltB) b)).

Example check_body_binary32 : b_run check_body_tests = None.
Proof. vm_cast_no_check (@eq_refl (option nat) None). Qed.

Example check_soil_binary32 : b_run check_soil_tests = None.
Proof. vm_cast_no_check (@eq_refl (option nat) None). Qed.

Example check_terrain_binary32 : b_run check_terrain_tests = None.
Proof. vm_cast_no_check (@eq_refl (option nat) None). Qed.

Example check_volume_binary32 : b_run check_volume_tests = None.
Proof. vm_cast_no_check (@eq_refl (option nat) None). Qed.

Example include_binary32 : b_run include_tests = None.
Proof. vm_cast_no_check (@eq_refl (option nat) None). Qed.

Example locate_intersecting_binary32 : b_run locate_intersecting_tests = None.
Proof. vm_cast_no_check (@eq_refl (option nat) None). Qed.

Example locate_unstable_binary32 : b_run locate_unstable_tests = None.
Proof. vm_cast_no_check (@eq_refl (option nat) None). Qed.

Example move_body_soil_binary32 : b_run move_body_soil_tests = None.
Proof. vm_cast_no_check (@eq_refl (option nat) None). Qed.

Example move_intersecting_body_binary32 : b_run move_intersecting_body_tests = None.
Proof. vm_cast_no_check (@eq_refl (option nat) None). Qed.

Example relax_body_cell_binary32 : b_run relax_body_cell_tests = None.
Proof. vm_cast_no_check (@eq_refl (option nat) None). Qed.

Example relax_body_soil_binary32 : b_run relax_body_soil_tests = None.
Proof. vm_cast_no_check (@eq_refl (option nat) None). Qed.

Example relax_terrain_binary32 : b_run relax_terrain_tests = None.
Proof. vm_cast_no_check (@eq_refl (option nat) None). Qed.

Example relax_terrain_cell_binary32 : b_run relax_terrain_cell_tests = None.
Proof. vm_cast_no_check (@eq_refl (option nat) None). Qed.

Example update_body_binary32 : b_run update_body_tests = None.
Proof. vm_cast_no_check (@eq_refl (option nat) None). Qed.

Example move_intersecting_body_soil_binary32 : b_run move_intersecting_body_soil_tests = None.
Proof. vm_cast_no_check (@eq_refl (option nat) None). Qed.
