(** The unit tests of test/unit_tests/test_types.cpp, in binary32.
    Produced by tools/translate_geometry.py. *)
From Coq Require Import ZArith List Bool.
From Coq Require Import Floats.SpecFloat.
From Verif Require Import Outcome Num State Flt FltB ModelTypes ModelGeometry ModelBodyPos
  ModelUtils ModelRaster ModelProgram TestLang TestBinary32 TestGeoLang.
Import ListNotations.
Open Scope Z_scope.

Definition TY_G_1 : list bool := [
  with_built (new_grid (K := FltB) (slit 40 1) (slit 40 1) (slit 40 1) (slit 5 2) (slit 1 2)) (fun g => g_half_x g =? 80);
  with_built (new_grid (K := FltB) (slit 40 1) (slit 40 1) (slit 40 1) (slit 5 2) (slit 1 2)) (fun g => g_half_y g =? 80);
  with_built (new_grid (K := FltB) (slit 40 1) (slit 40 1) (slit 40 1) (slit 5 2) (slit 1 2)) (fun g => g_half_z g =? 400);
  with_built (new_grid (K := FltB) (slit 40 1) (slit 40 1) (slit 40 1) (slit 5 2) (slit 1 2)) (fun g => expect_near (dlit 1 8) (g_cell_xy g) (dlit 5 2));
  with_built (new_grid (K := FltB) (slit 40 1) (slit 40 1) (slit 40 1) (slit 5 2) (slit 1 2)) (fun g => expect_near (dlit 1 8) (g_cell_z g) (dlit 1 2));
  with_built (new_grid (K := FltB) (slit 40 1) (slit 40 1) (slit 40 1) (slit 5 2) (slit 1 2)) (fun g => expect_near (dlit 1 8) (g_cell_area g) (dlit 25 4));
  with_built (new_grid (K := FltB) (slit 40 1) (slit 40 1) (slit 40 1) (slit 5 2) (slit 1 2)) (fun g => expect_near (dlit 1 8) (g_cell_volume g) (dlit 25 6));
  with_built (new_grid (K := FltB) (slit 40 1) (slit 40 1) (slit 40 1) (slit 5 2) (slit 1 2)) (fun g => levels_near 0 (dlit (-4) 0) (dlit 5 2) (g_vect_x g));
  with_built (new_grid (K := FltB) (slit 40 1) (slit 40 1) (slit 40 1) (slit 5 2) (slit 1 2)) (fun g => levels_near 0 (dlit (-4) 0) (dlit 5 2) (g_vect_y g));
  with_built (new_grid (K := FltB) (slit 40 1) (slit 40 1) (slit 40 1) (slit 5 2) (slit 1 2)) (fun g => levels_near_d 1 (dlit (-4) 0) (dlit 1 2) (g_vect_z g))].
Example TY_G_1_pass : forallb id TY_G_1 = true.
Proof. vm_cast_no_check (@eq_refl bool true). Qed.

Definition TY_G_2 : list bool := [
  throws (new_grid (K := FltB) (slit 40 1) (slit 40 1) (slit 40 1) (slit 5 2) (slit 0 1));
  throws (new_grid (K := FltB) (slit 40 1) (slit 40 1) (slit 40 1) (slit 5 2) (slit (-1) 2))].
Example TY_G_2_pass : forallb id TY_G_2 = true.
Proof. vm_cast_no_check (@eq_refl bool true). Qed.

Definition TY_G_3 : list bool := [
  throws (new_grid (K := FltB) (slit 40 1) (slit 40 1) (slit 40 1) (slit 0 1) (slit 1 2));
  throws (new_grid (K := FltB) (slit 40 1) (slit 40 1) (slit 40 1) (slit (-5) 2) (slit 1 2))].
Example TY_G_3_pass : forallb id TY_G_3 = true.
Proof. vm_cast_no_check (@eq_refl bool true). Qed.

Definition TY_G_4 : list bool := [
  throws (new_grid (K := FltB) (slit 0 1) (slit 40 1) (slit 40 1) (slit 5 2) (slit 1 2));
  throws (new_grid (K := FltB) (slit (-10) 1) (slit 40 1) (slit 40 1) (slit 5 2) (slit 1 2))].
Example TY_G_4_pass : forallb id TY_G_4 = true.
Proof. vm_cast_no_check (@eq_refl bool true). Qed.

Definition TY_G_5 : list bool := [
  throws (new_grid (K := FltB) (slit 40 1) (slit 0 1) (slit 40 1) (slit 5 2) (slit 1 2));
  throws (new_grid (K := FltB) (slit 40 1) (slit (-20) 1) (slit 40 1) (slit 5 2) (slit 1 2))].
Example TY_G_5_pass : forallb id TY_G_5 = true.
Proof. vm_cast_no_check (@eq_refl bool true). Qed.

Definition TY_G_6 : list bool := [
  throws (new_grid (K := FltB) (slit 40 1) (slit 40 1) (slit 0 1) (slit 5 2) (slit 1 2));
  throws (new_grid (K := FltB) (slit 40 1) (slit 40 1) (slit (-40) 1) (slit 5 2) (slit 1 2))].
Example TY_G_6_pass : forallb id TY_G_6 = true.
Proof. vm_cast_no_check (@eq_refl bool true). Qed.

Definition TY_G_7 : list bool := [
  throws (new_grid (K := FltB) (slit 40 1) (slit 40 1) (slit 40 1) (slit 5 2) (slit 6 2));
  builds (new_grid (K := FltB) (slit 40 1) (slit 40 1) (slit 40 1) (slit 5 2) (slit 5 2))].
Example TY_G_7_pass : forallb id TY_G_7 = true.
Proof. vm_cast_no_check (@eq_refl bool true). Qed.

Definition TY_G_8 : list bool := [
  throws (new_grid (K := FltB) (slit 4 2) (slit 40 1) (slit 40 1) (slit 5 2) (slit 5 2));
  builds (new_grid (K := FltB) (slit 5 2) (slit 40 1) (slit 40 1) (slit 5 2) (slit 5 2))].
Example TY_G_8_pass : forallb id TY_G_8 = true.
Proof. vm_cast_no_check (@eq_refl bool true). Qed.

Definition TY_G_9 : list bool := [
  throws (new_grid (K := FltB) (slit 40 1) (slit 1 2) (slit 40 1) (slit 5 2) (slit 5 2));
  builds (new_grid (K := FltB) (slit 40 1) (slit 5 2) (slit 40 1) (slit 5 2) (slit 5 2))].
Example TY_G_9_pass : forallb id TY_G_9 = true.
Proof. vm_cast_no_check (@eq_refl bool true). Qed.

Definition TY_G_10 : list bool := [
  throws (new_grid (K := FltB) (slit 40 1) (slit 40 1) (slit 1 2) (slit 5 2) (slit 3 2));
  builds (new_grid (K := FltB) (slit 40 1) (slit 40 1) (slit 3 2) (slit 5 2) (slit 3 2))].
Example TY_G_10_pass : forallb id TY_G_10 = true.
Proof. vm_cast_no_check (@eq_refl bool true). Qed.

Definition TY_Bu_1 : list bool := [
  with_built (new_body (K := FltB) [(slit 0 1); (slit 1 1); (slit 0 1)] [(slit 0 1); (slit 5 1); (slit 0 1)] [(slit 0 1); (slit 5 1); (slit 5 1)] [(slit 5 1); (slit 5 1); (slit 0 1)] (slit 5 1)) (fun b => expect_near (dlit 1 8) (vx (j_init b)) (dlit 0 1));
  with_built (new_body (K := FltB) [(slit 0 1); (slit 1 1); (slit 0 1)] [(slit 0 1); (slit 5 1); (slit 0 1)] [(slit 0 1); (slit 5 1); (slit 5 1)] [(slit 5 1); (slit 5 1); (slit 0 1)] (slit 5 1)) (fun b => expect_near (dlit 1 8) (vy (j_init b)) (dlit 4 1));
  with_built (new_body (K := FltB) [(slit 0 1); (slit 1 1); (slit 0 1)] [(slit 0 1); (slit 5 1); (slit 0 1)] [(slit 0 1); (slit 5 1); (slit 5 1)] [(slit 5 1); (slit 5 1); (slit 0 1)] (slit 5 1)) (fun b => expect_near (dlit 1 8) (vz (j_init b)) (dlit 0 1));
  with_built (new_body (K := FltB) [(slit 0 1); (slit 1 1); (slit 0 1)] [(slit 0 1); (slit 5 1); (slit 0 1)] [(slit 0 1); (slit 5 1); (slit 5 1)] [(slit 5 1); (slit 5 1); (slit 0 1)] (slit 5 1)) (fun b => expect_near (dlit 1 8) (vx (b_init b)) (dlit 0 1));
  with_built (new_body (K := FltB) [(slit 0 1); (slit 1 1); (slit 0 1)] [(slit 0 1); (slit 5 1); (slit 0 1)] [(slit 0 1); (slit 5 1); (slit 5 1)] [(slit 5 1); (slit 5 1); (slit 0 1)] (slit 5 1)) (fun b => expect_near (dlit 1 8) (vy (b_init b)) (dlit 4 1));
  with_built (new_body (K := FltB) [(slit 0 1); (slit 1 1); (slit 0 1)] [(slit 0 1); (slit 5 1); (slit 0 1)] [(slit 0 1); (slit 5 1); (slit 5 1)] [(slit 5 1); (slit 5 1); (slit 0 1)] (slit 5 1)) (fun b => expect_near (dlit 1 8) (vz (b_init b)) (dlit 5 1));
  with_built (new_body (K := FltB) [(slit 0 1); (slit 1 1); (slit 0 1)] [(slit 0 1); (slit 5 1); (slit 0 1)] [(slit 0 1); (slit 5 1); (slit 5 1)] [(slit 5 1); (slit 5 1); (slit 0 1)] (slit 5 1)) (fun b => expect_near (dlit 1 8) (vx (t_init b)) (dlit 5 1));
  with_built (new_body (K := FltB) [(slit 0 1); (slit 1 1); (slit 0 1)] [(slit 0 1); (slit 5 1); (slit 0 1)] [(slit 0 1); (slit 5 1); (slit 5 1)] [(slit 5 1); (slit 5 1); (slit 0 1)] (slit 5 1)) (fun b => expect_near (dlit 1 8) (vy (t_init b)) (dlit 4 1));
  with_built (new_body (K := FltB) [(slit 0 1); (slit 1 1); (slit 0 1)] [(slit 0 1); (slit 5 1); (slit 0 1)] [(slit 0 1); (slit 5 1); (slit 5 1)] [(slit 5 1); (slit 5 1); (slit 0 1)] (slit 5 1)) (fun b => expect_near (dlit 1 8) (vz (t_init b)) (dlit 0 1));
  with_built (new_body (K := FltB) [(slit 0 1); (slit 1 1); (slit 0 1)] [(slit 0 1); (slit 5 1); (slit 0 1)] [(slit 0 1); (slit 5 1); (slit 5 1)] [(slit 5 1); (slit 5 1); (slit 0 1)] (slit 5 1)) (fun b => b_eqb (width b) (slit 5 1));
  with_built (new_body (K := FltB) [(slit 0 1); (slit 1 1); (slit 0 1)] [(slit 0 1); (slit 5 1); (slit 0 1)] [(slit 0 1); (slit 5 1); (slit 5 1)] [(slit 5 1); (slit 5 1); (slit 0 1)] (slit 5 1)) (fun b => b_eqb (vx (pos_ b)) (slit 0 0) && b_eqb (vy (pos_ b)) (slit 0 0) && b_eqb (vz (pos_ b)) (slit 0 0));
  with_built (new_body (K := FltB) [(slit 0 1); (slit 1 1); (slit 0 1)] [(slit 0 1); (slit 5 1); (slit 0 1)] [(slit 0 1); (slit 5 1); (slit 5 1)] [(slit 5 1); (slit 5 1); (slit 0 1)] (slit 5 1)) (fun b => b_eqb (qw (ori_ b)) (slit 0 0) && b_eqb (qx (ori_ b)) (slit 0 0) && b_eqb (qy (ori_ b)) (slit 0 0) && b_eqb (qz (ori_ b)) (slit 0 0))].
Example TY_Bu_1_pass : forallb id TY_Bu_1 = true.
Proof. vm_cast_no_check (@eq_refl bool true). Qed.

Definition TY_Bu_2 : list bool := [
  throws (new_body (K := FltB) [(slit 0 1)] [(slit 0 1); (slit 5 1); (slit 0 1)] [(slit 0 1); (slit 5 1); (slit 5 1)] [(slit 5 1); (slit 5 1); (slit 0 1)] (slit 5 1))].
Example TY_Bu_2_pass : forallb id TY_Bu_2 = true.
Proof. vm_cast_no_check (@eq_refl bool true). Qed.

Definition TY_Bu_3 : list bool := [
  throws (new_body (K := FltB) [(slit 0 1); (slit 1 1); (slit 0 1)] [(slit 0 1); (slit 1 1)] [(slit 0 1); (slit 5 1); (slit 5 1)] [(slit 5 1); (slit 5 1); (slit 0 1)] (slit 5 1))].
Example TY_Bu_3_pass : forallb id TY_Bu_3 = true.
Proof. vm_cast_no_check (@eq_refl bool true). Qed.

Definition TY_Bu_4 : list bool := [
  throws (new_body (K := FltB) [(slit 0 1); (slit 1 1); (slit 0 1)] [(slit 0 1); (slit 5 1); (slit 0 1)] [(slit 0 1); (slit 1 1); (slit 0 1); (slit 3 1)] [(slit 5 1); (slit 5 1); (slit 0 1)] (slit 5 1))].
Example TY_Bu_4_pass : forallb id TY_Bu_4 = true.
Proof. vm_cast_no_check (@eq_refl bool true). Qed.

Definition TY_Bu_5 : list bool := [
  throws (new_body (K := FltB) [(slit 0 1); (slit 1 1); (slit 0 1)] [(slit 0 1); (slit 5 1); (slit 0 1)] [(slit 0 1); (slit 5 1); (slit 5 1)] [(slit 0 1); (slit 1 1)] (slit 5 1))].
Example TY_Bu_5_pass : forallb id TY_Bu_5 = true.
Proof. vm_cast_no_check (@eq_refl bool true). Qed.

Definition TY_Bu_6 : list bool := [
  throws (new_body (K := FltB) [(slit 0 1); (slit 1 1); (slit 0 1)] [(slit 0 1); (slit 5 1); (slit 5 1)] [(slit 0 1); (slit 5 1); (slit 5 1)] [(slit 5 1); (slit 5 1); (slit 0 1)] (slit 5 1))].
Example TY_Bu_6_pass : forallb id TY_Bu_6 = true.
Proof. vm_cast_no_check (@eq_refl bool true). Qed.

Definition TY_Bu_7 : list bool := [
  throws (new_body (K := FltB) [(slit 0 1); (slit 1 1); (slit 0 1)] [(slit 5 1); (slit 5 1); (slit 0 1)] [(slit 0 1); (slit 5 1); (slit 5 1)] [(slit 5 1); (slit 5 1); (slit 0 1)] (slit 5 1))].
Example TY_Bu_7_pass : forallb id TY_Bu_7 = true.
Proof. vm_cast_no_check (@eq_refl bool true). Qed.

Definition TY_Bu_8 : list bool := [
  throws (new_body (K := FltB) [(slit 0 1); (slit 1 1); (slit 0 1)] [(slit 0 1); (slit 5 1); (slit 0 1)] [(slit 0 1); (slit 5 1); (slit 5 1)] [(slit 0 1); (slit 5 1); (slit 5 1)] (slit 5 1))].
Example TY_Bu_8_pass : forallb id TY_Bu_8 = true.
Proof. vm_cast_no_check (@eq_refl bool true). Qed.

Definition TY_Bu_9 : list bool := [
  throws (new_body (K := FltB) [(slit 0 1); (slit 1 1); (slit 0 1)] [(slit 0 1); (slit 5 1); (slit 0 1)] [(slit 0 1); (slit 5 1); (slit 5 1)] [(slit 5 1); (slit 5 1); (slit 0 1)] (slit 0 1));
  throws (new_body (K := FltB) [(slit 0 1); (slit 1 1); (slit 0 1)] [(slit 0 1); (slit 5 1); (slit 0 1)] [(slit 0 1); (slit 5 1); (slit 5 1)] [(slit 5 1); (slit 5 1); (slit 0 1)] (slit (-5) 1))].
Example TY_Bu_9_pass : forallb id TY_Bu_9 = true.
Proof. vm_cast_no_check (@eq_refl bool true). Qed.

Definition TY_Bl_1 : list bool := [
  with_built (new_body (K := FltB) [(slit 0 1); (slit 1 1); (slit 0 1)] [(slit 0 1); (slit 5 1); (slit 0 1)] [(slit 0 1); (slit 5 1); (slit 5 1)] [(slit 5 1); (slit 5 1); (slit 0 1)] (slit 5 1)) (fun b => expect_near (dlit 1 8) (vx (j_init b)) (dlit 0 1));
  with_built (new_body (K := FltB) [(slit 0 1); (slit 1 1); (slit 0 1)] [(slit 0 1); (slit 5 1); (slit 0 1)] [(slit 0 1); (slit 5 1); (slit 5 1)] [(slit 5 1); (slit 5 1); (slit 0 1)] (slit 5 1)) (fun b => expect_near (dlit 1 8) (vy (j_init b)) (dlit 4 1));
  with_built (new_body (K := FltB) [(slit 0 1); (slit 1 1); (slit 0 1)] [(slit 0 1); (slit 5 1); (slit 0 1)] [(slit 0 1); (slit 5 1); (slit 5 1)] [(slit 5 1); (slit 5 1); (slit 0 1)] (slit 5 1)) (fun b => expect_near (dlit 1 8) (vz (j_init b)) (dlit 0 1));
  with_built (new_body (K := FltB) [(slit 0 1); (slit 1 1); (slit 0 1)] [(slit 0 1); (slit 5 1); (slit 0 1)] [(slit 0 1); (slit 5 1); (slit 5 1)] [(slit 5 1); (slit 5 1); (slit 0 1)] (slit 5 1)) (fun b => expect_near (dlit 1 8) (vx (b_init b)) (dlit 0 1));
  with_built (new_body (K := FltB) [(slit 0 1); (slit 1 1); (slit 0 1)] [(slit 0 1); (slit 5 1); (slit 0 1)] [(slit 0 1); (slit 5 1); (slit 5 1)] [(slit 5 1); (slit 5 1); (slit 0 1)] (slit 5 1)) (fun b => expect_near (dlit 1 8) (vy (b_init b)) (dlit 4 1));
  with_built (new_body (K := FltB) [(slit 0 1); (slit 1 1); (slit 0 1)] [(slit 0 1); (slit 5 1); (slit 0 1)] [(slit 0 1); (slit 5 1); (slit 5 1)] [(slit 5 1); (slit 5 1); (slit 0 1)] (slit 5 1)) (fun b => expect_near (dlit 1 8) (vz (b_init b)) (dlit 5 1));
  with_built (new_body (K := FltB) [(slit 0 1); (slit 1 1); (slit 0 1)] [(slit 0 1); (slit 5 1); (slit 0 1)] [(slit 0 1); (slit 5 1); (slit 5 1)] [(slit 5 1); (slit 5 1); (slit 0 1)] (slit 5 1)) (fun b => expect_near (dlit 1 8) (vx (t_init b)) (dlit 5 1));
  with_built (new_body (K := FltB) [(slit 0 1); (slit 1 1); (slit 0 1)] [(slit 0 1); (slit 5 1); (slit 0 1)] [(slit 0 1); (slit 5 1); (slit 5 1)] [(slit 5 1); (slit 5 1); (slit 0 1)] (slit 5 1)) (fun b => expect_near (dlit 1 8) (vy (t_init b)) (dlit 4 1));
  with_built (new_body (K := FltB) [(slit 0 1); (slit 1 1); (slit 0 1)] [(slit 0 1); (slit 5 1); (slit 0 1)] [(slit 0 1); (slit 5 1); (slit 5 1)] [(slit 5 1); (slit 5 1); (slit 0 1)] (slit 5 1)) (fun b => expect_near (dlit 1 8) (vz (t_init b)) (dlit 0 1));
  with_built (new_body (K := FltB) [(slit 0 1); (slit 1 1); (slit 0 1)] [(slit 0 1); (slit 5 1); (slit 0 1)] [(slit 0 1); (slit 5 1); (slit 5 1)] [(slit 5 1); (slit 5 1); (slit 0 1)] (slit 5 1)) (fun b => b_eqb (width b) (slit 5 1));
  with_built (new_body (K := FltB) [(slit 0 1); (slit 1 1); (slit 0 1)] [(slit 0 1); (slit 5 1); (slit 0 1)] [(slit 0 1); (slit 5 1); (slit 5 1)] [(slit 5 1); (slit 5 1); (slit 0 1)] (slit 5 1)) (fun b => b_eqb (vx (pos_ b)) (slit 0 0) && b_eqb (vy (pos_ b)) (slit 0 0) && b_eqb (vz (pos_ b)) (slit 0 0));
  with_built (new_body (K := FltB) [(slit 0 1); (slit 1 1); (slit 0 1)] [(slit 0 1); (slit 5 1); (slit 0 1)] [(slit 0 1); (slit 5 1); (slit 5 1)] [(slit 5 1); (slit 5 1); (slit 0 1)] (slit 5 1)) (fun b => b_eqb (qw (ori_ b)) (slit 0 0) && b_eqb (qx (ori_ b)) (slit 0 0) && b_eqb (qy (ori_ b)) (slit 0 0) && b_eqb (qz (ori_ b)) (slit 0 0))].
Example TY_Bl_1_pass : forallb id TY_Bl_1 = true.
Proof. vm_cast_no_check (@eq_refl bool true). Qed.

Definition TY_Bl_2 : list bool := [
  throws (new_body (K := FltB) [(slit 0 1)] [(slit 0 1); (slit 5 1); (slit 0 1)] [(slit 0 1); (slit 5 1); (slit 5 1)] [(slit 5 1); (slit 5 1); (slit 0 1)] (slit 5 1))].
Example TY_Bl_2_pass : forallb id TY_Bl_2 = true.
Proof. vm_cast_no_check (@eq_refl bool true). Qed.

Definition TY_Bl_3 : list bool := [
  throws (new_body (K := FltB) [(slit 0 1); (slit 1 1); (slit 0 1)] [(slit 0 1); (slit 1 1)] [(slit 0 1); (slit 5 1); (slit 5 1)] [(slit 5 1); (slit 5 1); (slit 0 1)] (slit 5 1))].
Example TY_Bl_3_pass : forallb id TY_Bl_3 = true.
Proof. vm_cast_no_check (@eq_refl bool true). Qed.

Definition TY_Bl_4 : list bool := [
  throws (new_body (K := FltB) [(slit 0 1); (slit 1 1); (slit 0 1)] [(slit 0 1); (slit 5 1); (slit 0 1)] [(slit 0 1); (slit 1 1); (slit 0 1); (slit 3 1)] [(slit 5 1); (slit 5 1); (slit 0 1)] (slit 5 1))].
Example TY_Bl_4_pass : forallb id TY_Bl_4 = true.
Proof. vm_cast_no_check (@eq_refl bool true). Qed.

Definition TY_Bl_5 : list bool := [
  throws (new_body (K := FltB) [(slit 0 1); (slit 1 1); (slit 0 1)] [(slit 0 1); (slit 5 1); (slit 0 1)] [(slit 0 1); (slit 5 1); (slit 5 1)] [(slit 0 1); (slit 1 1)] (slit 5 1))].
Example TY_Bl_5_pass : forallb id TY_Bl_5 = true.
Proof. vm_cast_no_check (@eq_refl bool true). Qed.

Definition TY_Bl_6 : list bool := [
  throws (new_body (K := FltB) [(slit 0 1); (slit 1 1); (slit 0 1)] [(slit 0 1); (slit 5 1); (slit 5 1)] [(slit 0 1); (slit 5 1); (slit 5 1)] [(slit 5 1); (slit 5 1); (slit 0 1)] (slit 5 1))].
Example TY_Bl_6_pass : forallb id TY_Bl_6 = true.
Proof. vm_cast_no_check (@eq_refl bool true). Qed.

Definition TY_Bl_7 : list bool := [
  throws (new_body (K := FltB) [(slit 0 1); (slit 1 1); (slit 0 1)] [(slit 5 1); (slit 5 1); (slit 0 1)] [(slit 0 1); (slit 5 1); (slit 5 1)] [(slit 5 1); (slit 5 1); (slit 0 1)] (slit 5 1))].
Example TY_Bl_7_pass : forallb id TY_Bl_7 = true.
Proof. vm_cast_no_check (@eq_refl bool true). Qed.

Definition TY_Bl_8 : list bool := [
  throws (new_body (K := FltB) [(slit 0 1); (slit 1 1); (slit 0 1)] [(slit 0 1); (slit 5 1); (slit 0 1)] [(slit 0 1); (slit 5 1); (slit 5 1)] [(slit 0 1); (slit 5 1); (slit 5 1)] (slit 5 1))].
Example TY_Bl_8_pass : forallb id TY_Bl_8 = true.
Proof. vm_cast_no_check (@eq_refl bool true). Qed.

Definition TY_Bl_9 : list bool := [
  throws (new_body (K := FltB) [(slit 0 1); (slit 1 1); (slit 0 1)] [(slit 0 1); (slit 5 1); (slit 0 1)] [(slit 0 1); (slit 5 1); (slit 5 1)] [(slit 5 1); (slit 5 1); (slit 0 1)] (slit 0 1));
  throws (new_body (K := FltB) [(slit 0 1); (slit 1 1); (slit 0 1)] [(slit 0 1); (slit 5 1); (slit 0 1)] [(slit 0 1); (slit 5 1); (slit 5 1)] [(slit 5 1); (slit 5 1); (slit 0 1)] (slit (-5) 1))].
Example TY_Bl_9_pass : forallb id TY_Bl_9 = true.
Proof. vm_cast_no_check (@eq_refl bool true). Qed.

Definition TY_SP_1 : list bool := [
  with_built (new_param (K := FltB) test_pi (slit 85 2) 5 4) (fun p => expect_near (dlit 1 7) (repose_angle p) (dlit 85 2));
  with_built (new_param (K := FltB) test_pi (slit 85 2) 5 4) (fun p => max_iterations p =? 5);
  with_built (new_param (K := FltB) test_pi (slit 85 2) 5 4) (fun p => cell_buffer p =? 4)].
Example TY_SP_1_pass : forallb id TY_SP_1 = true.
Proof. vm_cast_no_check (@eq_refl bool true). Qed.

Definition TY_SP_2 : list bool := [
  throws (new_param (K := FltB) test_pi (slit 314 2) 5 4);
  throws (new_param (K := FltB) test_pi (slit (-85) 2) 5 4)].
Example TY_SP_2_pass : forallb id TY_SP_2 = true.
Proof. vm_cast_no_check (@eq_refl bool true). Qed.

Definition TY_SP_3 : list bool := [
  builds (new_param (K := FltB) test_pi (slit 85 2) 0 4);
  throws (new_param (K := FltB) test_pi (slit 85 2) (-5) 4)].
Example TY_SP_3_pass : forallb id TY_SP_3 = true.
Proof. vm_cast_no_check (@eq_refl bool true). Qed.

Definition TY_SP_4 : list bool := [
  throws (new_param (K := FltB) test_pi (slit 85 2) 5 1)].
Example TY_SP_4_pass : forallb id TY_SP_4 = true.
Proof. vm_cast_no_check (@eq_refl bool true). Qed.

Definition TY_SO_1 : list bool := [
  with_built (new_grid (K := FltB) (slit 20 1) (slit 20 1) (slit 20 1) (slit 10 1) (slit 1 2)) (fun g => let s := new_sim (soil_grid g) (fun _ _ => O) [] in negb (equilibrium s));
  with_built (new_grid (K := FltB) (slit 20 1) (slit 20 1) (slit 20 1) (slit 10 1) (slit 1 2)) (fun g => let s := new_sim (soil_grid g) (fun _ _ => O) [] in forallb (fun c => b_eqb (terrain s (fst c) (snd c)) (slit 0 0)) (all_cells s));
  with_built (new_grid (K := FltB) (slit 20 1) (slit 20 1) (slit 20 1) (slit 10 1) (slit 1 2)) (fun g => let s := new_sim (soil_grid g) (fun _ _ => O) [] in (nx s =? 5) && (ny s =? 5));
  with_built (new_grid (K := FltB) (slit 20 1) (slit 20 1) (slit 20 1) (slit 10 1) (slit 1 2)) (fun g => let s := new_sim (soil_grid g) (fun _ _ => O) [] in (nx s =? 5) && (ny s =? 5));
  with_built (new_grid (K := FltB) (slit 20 1) (slit 20 1) (slit 20 1) (slit 10 1) (slit 1 2)) (fun g => let s := new_sim (soil_grid g) (fun _ _ => O) [] in forallb (fun c => forallb (fun k => b_eqb (body s k (fst c) (snd c)) (slit 0 0) && b_eqb (body_soil s k (fst c) (snd c)) (slit 0 0)) [0; 1; 2; 3]) (all_cells s));
  with_built (new_grid (K := FltB) (slit 20 1) (slit 20 1) (slit 20 1) (slit 10 1) (slit 1 2)) (fun g => let s := new_sim (soil_grid g) (fun _ _ => O) [] in (nx s =? 5) && (ny s =? 5));
  with_built (new_grid (K := FltB) (slit 20 1) (slit 20 1) (slit 20 1) (slit 10 1) (slit 1 2)) (fun g => let s := new_sim (soil_grid g) (fun _ _ => O) [] in (nx s =? 5) && (ny s =? 5));
  with_built (new_grid (K := FltB) (slit 20 1) (slit 20 1) (slit 20 1) (slit 10 1) (slit 1 2)) (fun g => let s := new_sim (soil_grid g) (fun _ _ => O) [] in (nx s =? 5) && (ny s =? 5));
  with_built (new_grid (K := FltB) (slit 20 1) (slit 20 1) (slit 20 1) (slit 10 1) (slit 1 2)) (fun g => let s := new_sim (soil_grid g) (fun _ _ => O) [] in (nx s =? 5) && (ny s =? 5));
  with_built (new_grid (K := FltB) (slit 20 1) (slit 20 1) (slit 20 1) (slit 10 1) (slit 1 2)) (fun g => let s := new_sim (soil_grid g) (fun _ _ => O) [] in x_lo (body_area s) =? 1);
  with_built (new_grid (K := FltB) (slit 20 1) (slit 20 1) (slit 20 1) (slit 10 1) (slit 1 2)) (fun g => let s := new_sim (soil_grid g) (fun _ _ => O) [] in x_lo (relax_area s) =? 1);
  with_built (new_grid (K := FltB) (slit 20 1) (slit 20 1) (slit 20 1) (slit 10 1) (slit 1 2)) (fun g => let s := new_sim (soil_grid g) (fun _ _ => O) [] in x_lo (impact_area s) =? 1);
  with_built (new_grid (K := FltB) (slit 20 1) (slit 20 1) (slit 20 1) (slit 10 1) (slit 1 2)) (fun g => let s := new_sim (soil_grid g) (fun _ _ => O) [] in x_hi (body_area s) =? 4);
  with_built (new_grid (K := FltB) (slit 20 1) (slit 20 1) (slit 20 1) (slit 10 1) (slit 1 2)) (fun g => let s := new_sim (soil_grid g) (fun _ _ => O) [] in x_hi (relax_area s) =? 4);
  with_built (new_grid (K := FltB) (slit 20 1) (slit 20 1) (slit 20 1) (slit 10 1) (slit 1 2)) (fun g => let s := new_sim (soil_grid g) (fun _ _ => O) [] in x_hi (impact_area s) =? 4);
  with_built (new_grid (K := FltB) (slit 20 1) (slit 20 1) (slit 20 1) (slit 10 1) (slit 1 2)) (fun g => let s := new_sim (soil_grid g) (fun _ _ => O) [] in y_lo (body_area s) =? 1);
  with_built (new_grid (K := FltB) (slit 20 1) (slit 20 1) (slit 20 1) (slit 10 1) (slit 1 2)) (fun g => let s := new_sim (soil_grid g) (fun _ _ => O) [] in y_lo (relax_area s) =? 1);
  with_built (new_grid (K := FltB) (slit 20 1) (slit 20 1) (slit 20 1) (slit 10 1) (slit 1 2)) (fun g => let s := new_sim (soil_grid g) (fun _ _ => O) [] in y_lo (impact_area s) =? 1);
  with_built (new_grid (K := FltB) (slit 20 1) (slit 20 1) (slit 20 1) (slit 10 1) (slit 1 2)) (fun g => let s := new_sim (soil_grid g) (fun _ _ => O) [] in y_hi (body_area s) =? 4);
  with_built (new_grid (K := FltB) (slit 20 1) (slit 20 1) (slit 20 1) (slit 10 1) (slit 1 2)) (fun g => let s := new_sim (soil_grid g) (fun _ _ => O) [] in y_hi (relax_area s) =? 4);
  with_built (new_grid (K := FltB) (slit 20 1) (slit 20 1) (slit 20 1) (slit 10 1) (slit 1 2)) (fun g => let s := new_sim (soil_grid g) (fun _ _ => O) [] in y_hi (impact_area s) =? 4)].
Example TY_SO_1_pass : forallb id TY_SO_1 = true.
Proof. vm_cast_no_check (@eq_refl bool true). Qed.
