(** The unit tests of test/unit_tests/test_utils.cpp:17-399, in binary32.
    Produced by tools/translate_geometry.py. *)
From Coq Require Import ZArith List Bool.
From Coq Require Import Floats.SpecFloat.
From Verif Require Import Outcome Num State Flt FltB ModelTypes ModelGeometry ModelBodyPos
  ModelUtils ModelRaster ModelProgram TestLang TestBinary32 TestGeoLang.
Import ListNotations.
Open Scope Z_scope.

Definition UT_CBC_1 : list bool := [
  vec_eqb (j_r (calc_body_corner_pos (mkVec (slit 0 1) (slit 0 1) (slit 0 1)) (mkQuat (slit 10 1) (slit 0 1) (slit 0 1) (slit 0 1)) utils_bucket)) (mkVec (slit 0 1) (slit (-25) 2) (slit 0 1));
  vec_eqb (j_l (calc_body_corner_pos (mkVec (slit 0 1) (slit 0 1) (slit 0 1)) (mkQuat (slit 10 1) (slit 0 1) (slit 0 1) (slit 0 1)) utils_bucket)) (mkVec (slit 0 1) (slit 25 2) (slit 0 1));
  vec_eqb (b_r (calc_body_corner_pos (mkVec (slit 0 1) (slit 0 1) (slit 0 1)) (mkQuat (slit 10 1) (slit 0 1) (slit 0 1) (slit 0 1)) utils_bucket)) (mkVec (slit 0 1) (slit (-25) 2) (slit (-5) 1));
  vec_eqb (b_l (calc_body_corner_pos (mkVec (slit 0 1) (slit 0 1) (slit 0 1)) (mkQuat (slit 10 1) (slit 0 1) (slit 0 1) (slit 0 1)) utils_bucket)) (mkVec (slit 0 1) (slit 25 2) (slit (-5) 1));
  vec_eqb (t_r (calc_body_corner_pos (mkVec (slit 0 1) (slit 0 1) (slit 0 1)) (mkQuat (slit 10 1) (slit 0 1) (slit 0 1) (slit 0 1)) utils_bucket)) (mkVec (slit 7 1) (slit (-25) 2) (slit (-5) 1));
  vec_eqb (t_l (calc_body_corner_pos (mkVec (slit 0 1) (slit 0 1) (slit 0 1)) (mkQuat (slit 10 1) (slit 0 1) (slit 0 1) (slit 0 1)) utils_bucket)) (mkVec (slit 7 1) (slit 25 2) (slit (-5) 1))].
Example UT_CBC_1_pass : forallb id UT_CBC_1 = true.
Proof. vm_cast_no_check (@eq_refl bool true). Qed.

Definition UT_CBC_2 : list bool := [
  vec_eqb (j_r (calc_body_corner_pos (mkVec (slit 1 1) (slit (-1) 1) (slit 2 1)) (mkQuat (slit 10 1) (slit 0 1) (slit 0 1) (slit 0 1)) utils_bucket)) (mkVec (slit 1 1) (slit (-35) 2) (slit 2 1));
  vec_eqb (j_l (calc_body_corner_pos (mkVec (slit 1 1) (slit (-1) 1) (slit 2 1)) (mkQuat (slit 10 1) (slit 0 1) (slit 0 1) (slit 0 1)) utils_bucket)) (mkVec (slit 1 1) (slit 15 2) (slit 2 1));
  vec_eqb (b_r (calc_body_corner_pos (mkVec (slit 1 1) (slit (-1) 1) (slit 2 1)) (mkQuat (slit 10 1) (slit 0 1) (slit 0 1) (slit 0 1)) utils_bucket)) (mkVec (slit 1 1) (slit (-35) 2) (slit (-3) 1));
  vec_eqb (b_l (calc_body_corner_pos (mkVec (slit 1 1) (slit (-1) 1) (slit 2 1)) (mkQuat (slit 10 1) (slit 0 1) (slit 0 1) (slit 0 1)) utils_bucket)) (mkVec (slit 1 1) (slit 15 2) (slit (-3) 1));
  vec_eqb (t_r (calc_body_corner_pos (mkVec (slit 1 1) (slit (-1) 1) (slit 2 1)) (mkQuat (slit 10 1) (slit 0 1) (slit 0 1) (slit 0 1)) utils_bucket)) (mkVec (slit 8 1) (slit (-35) 2) (slit (-3) 1));
  vec_eqb (t_l (calc_body_corner_pos (mkVec (slit 1 1) (slit (-1) 1) (slit 2 1)) (mkQuat (slit 10 1) (slit 0 1) (slit 0 1) (slit 0 1)) utils_bucket)) (mkVec (slit 8 1) (slit 15 2) (slit (-3) 1))].
Example UT_CBC_2_pass : forallb id UT_CBC_2 = true.
Proof. vm_cast_no_check (@eq_refl bool true). Qed.

Definition UT_CBC_3 : list bool := [
  vec_eqb (j_r (calc_body_corner_pos (mkVec (slit 0 1) (slit 0 1) (slit 0 1)) (mkQuat (slit 707107 6) (slit 0 1) (slit 0 1) (slit (-707107) 6)) utils_bucket)) (mkVec (slit 25 2) (slit 0 1) (slit 0 1));
  vec_eqb (j_l (calc_body_corner_pos (mkVec (slit 0 1) (slit 0 1) (slit 0 1)) (mkQuat (slit 707107 6) (slit 0 1) (slit 0 1) (slit (-707107) 6)) utils_bucket)) (mkVec (slit (-25) 2) (slit 0 1) (slit 0 1));
  vec_eqb (b_r (calc_body_corner_pos (mkVec (slit 0 1) (slit 0 1) (slit 0 1)) (mkQuat (slit 707107 6) (slit 0 1) (slit 0 1) (slit (-707107) 6)) utils_bucket)) (mkVec (slit 25 2) (slit 0 1) (slit (-5) 1));
  vec_eqb (b_l (calc_body_corner_pos (mkVec (slit 0 1) (slit 0 1) (slit 0 1)) (mkQuat (slit 707107 6) (slit 0 1) (slit 0 1) (slit (-707107) 6)) utils_bucket)) (mkVec (slit (-25) 2) (slit 0 1) (slit (-5) 1));
  expect_near (dlit 1 5) (vx (t_r (calc_body_corner_pos (mkVec (slit 0 1) (slit 0 1) (slit 0 1)) (mkQuat (slit 707107 6) (slit 0 1) (slit 0 1) (slit (-707107) 6)) utils_bucket))) (dlit 25 2);
  expect_near (dlit 1 5) (vy (t_r (calc_body_corner_pos (mkVec (slit 0 1) (slit 0 1) (slit 0 1)) (mkQuat (slit 707107 6) (slit 0 1) (slit 0 1) (slit (-707107) 6)) utils_bucket))) (dlit 7 1);
  expect_near (dlit 1 5) (vz (t_r (calc_body_corner_pos (mkVec (slit 0 1) (slit 0 1) (slit 0 1)) (mkQuat (slit 707107 6) (slit 0 1) (slit 0 1) (slit (-707107) 6)) utils_bucket))) (dlit (-5) 1);
  expect_near (dlit 1 5) (vx (t_l (calc_body_corner_pos (mkVec (slit 0 1) (slit 0 1) (slit 0 1)) (mkQuat (slit 707107 6) (slit 0 1) (slit 0 1) (slit (-707107) 6)) utils_bucket))) (dlit (-25) 2);
  expect_near (dlit 1 5) (vy (t_l (calc_body_corner_pos (mkVec (slit 0 1) (slit 0 1) (slit 0 1)) (mkQuat (slit 707107 6) (slit 0 1) (slit 0 1) (slit (-707107) 6)) utils_bucket))) (dlit 7 1);
  expect_near (dlit 1 5) (vz (t_l (calc_body_corner_pos (mkVec (slit 0 1) (slit 0 1) (slit 0 1)) (mkQuat (slit 707107 6) (slit 0 1) (slit 0 1) (slit (-707107) 6)) utils_bucket))) (dlit (-5) 1)].
Example UT_CBC_3_pass : forallb id UT_CBC_3 = true.
Proof. vm_cast_no_check (@eq_refl bool true). Qed.

Definition UT_CBC_4 : list bool := [
  vec_eqb (j_r (calc_body_corner_pos (mkVec (slit 1 1) (slit (-1) 1) (slit 2 1)) (mkQuat (slit 707107 6) (slit 0 1) (slit 0 1) (slit (-707107) 6)) utils_bucket)) (mkVec (slit 35 2) (slit (-1) 1) (slit 2 1));
  vec_eqb (j_l (calc_body_corner_pos (mkVec (slit 1 1) (slit (-1) 1) (slit 2 1)) (mkQuat (slit 707107 6) (slit 0 1) (slit 0 1) (slit (-707107) 6)) utils_bucket)) (mkVec (slit (-15) 2) (slit (-1) 1) (slit 2 1));
  vec_eqb (b_r (calc_body_corner_pos (mkVec (slit 1 1) (slit (-1) 1) (slit 2 1)) (mkQuat (slit 707107 6) (slit 0 1) (slit 0 1) (slit (-707107) 6)) utils_bucket)) (mkVec (slit 35 2) (slit (-1) 1) (slit (-3) 1));
  vec_eqb (b_l (calc_body_corner_pos (mkVec (slit 1 1) (slit (-1) 1) (slit 2 1)) (mkQuat (slit 707107 6) (slit 0 1) (slit 0 1) (slit (-707107) 6)) utils_bucket)) (mkVec (slit (-15) 2) (slit (-1) 1) (slit (-3) 1));
  vec_eqb (t_r (calc_body_corner_pos (mkVec (slit 1 1) (slit (-1) 1) (slit 2 1)) (mkQuat (slit 707107 6) (slit 0 1) (slit 0 1) (slit (-707107) 6)) utils_bucket)) (mkVec (slit 35 2) (slit 6 1) (slit (-3) 1));
  vec_eqb (t_l (calc_body_corner_pos (mkVec (slit 1 1) (slit (-1) 1) (slit 2 1)) (mkQuat (slit 707107 6) (slit 0 1) (slit 0 1) (slit (-707107) 6)) utils_bucket)) (mkVec (slit (-15) 2) (slit 6 1) (slit (-3) 1))].
Example UT_CBC_4_pass : forallb id UT_CBC_4 = true.
Proof. vm_cast_no_check (@eq_refl bool true). Qed.

Definition UT_CBM_1 : list bool := [
  fst (check_body_movement (mkVec (slit 1 1) (slit 0 1) (slit 0 1)) (mkQuat (slit 10 1) (slit 0 1) (slit 0 1) (slit 0 1)) test_grid (mkGBody (K := FltB) (j_init utils_bucket) (b_init utils_bucket) (t_init utils_bucket) (width utils_bucket) (mkVec (slit 0 1) (slit 0 1) (slit 0 1)) (mkQuat (slit 10 1) (slit 0 1) (slit 0 1) (slit 0 1))))].
Example UT_CBM_1_pass : forallb id UT_CBM_1 = true.
Proof. vm_cast_no_check (@eq_refl bool true). Qed.

Definition UT_CBM_2 : list bool := [
  fst (check_body_movement (mkVec (slit 5 2) (slit 2 2) (slit (-5) 2)) (mkQuat (slit 10 1) (slit 0 1) (slit 0 1) (slit 0 1)) test_grid (mkGBody (K := FltB) (j_init utils_bucket) (b_init utils_bucket) (t_init utils_bucket) (width utils_bucket) (mkVec (slit 0 1) (slit 0 1) (slit 0 1)) (mkQuat (slit 10 1) (slit 0 1) (slit 0 1) (slit 0 1))))].
Example UT_CBM_2_pass : forallb id UT_CBM_2 = true.
Proof. vm_cast_no_check (@eq_refl bool true). Qed.

Definition UT_CBM_3 : list bool := [
  fst (check_body_movement (mkVec (slit 0 1) (slit 0 1) (slit 0 1)) (mkQuat (slit 997 3) (slit 0 1) (slit 7 2) (slit 0 1)) test_grid (mkGBody (K := FltB) (j_init utils_bucket) (b_init utils_bucket) (t_init utils_bucket) (width utils_bucket) (mkVec (slit 0 1) (slit 0 1) (slit 0 1)) (mkQuat (slit 10 1) (slit 0 1) (slit 0 1) (slit 0 1))))].
Example UT_CBM_3_pass : forallb id UT_CBM_3 = true.
Proof. vm_cast_no_check (@eq_refl bool true). Qed.

Definition UT_CBM_4 : list bool := [
  fst (check_body_movement (mkVec (slit 5 2) (slit 0 1) (slit 0 1)) (mkQuat (slit 997 3) (slit 0 1) (slit 7 2) (slit 0 1)) test_grid (mkGBody (K := FltB) (j_init utils_bucket) (b_init utils_bucket) (t_init utils_bucket) (width utils_bucket) (mkVec (slit 0 1) (slit 0 1) (slit 0 1)) (mkQuat (slit 10 1) (slit 0 1) (slit 0 1) (slit 0 1))))].
Example UT_CBM_4_pass : forallb id UT_CBM_4 = true.
Proof. vm_cast_no_check (@eq_refl bool true). Qed.

Definition UT_CBM_5 : list bool := [
  negb (fst (check_body_movement (mkVec (slit 5 3) (slit 0 1) (slit 0 1)) (mkQuat (slit 10 1) (slit 0 1) (slit 0 1) (slit 0 1)) test_grid (mkGBody (K := FltB) (j_init utils_bucket) (b_init utils_bucket) (t_init utils_bucket) (width utils_bucket) (mkVec (slit 0 1) (slit 0 1) (slit 0 1)) (mkQuat (slit 10 1) (slit 0 1) (slit 0 1) (slit 0 1)))))].
Example UT_CBM_5_pass : forallb id UT_CBM_5 = true.
Proof. vm_cast_no_check (@eq_refl bool true). Qed.

Definition UT_CBM_6 : list bool := [
  negb (fst (check_body_movement (mkVec (slit 1 3) (slit 2 3) (slit (-3) 3)) (mkQuat (slit 10 1) (slit 0 1) (slit 0 1) (slit 0 1)) test_grid (mkGBody (K := FltB) (j_init utils_bucket) (b_init utils_bucket) (t_init utils_bucket) (width utils_bucket) (mkVec (slit 0 1) (slit 0 1) (slit 0 1)) (mkQuat (slit 10 1) (slit 0 1) (slit 0 1) (slit 0 1)))))].
Example UT_CBM_6_pass : forallb id UT_CBM_6 = true.
Proof. vm_cast_no_check (@eq_refl bool true). Qed.

Definition UT_CBM_7 : list bool := [
  negb (fst (check_body_movement (mkVec (slit 0 1) (slit 0 1) (slit 0 1)) (mkQuat (slit 999 3) (slit 0 1) (slit 29 4) (slit 0 1)) test_grid (mkGBody (K := FltB) (j_init utils_bucket) (b_init utils_bucket) (t_init utils_bucket) (width utils_bucket) (mkVec (slit 0 1) (slit 0 1) (slit 0 1)) (mkQuat (slit 10 1) (slit 0 1) (slit 0 1) (slit 0 1)))))].
Example UT_CBM_7_pass : forallb id UT_CBM_7 = true.
Proof. vm_cast_no_check (@eq_refl bool true). Qed.

Definition UT_CBM_8 : list bool := [
  negb (fst (check_body_movement (mkVec (slit 1 3) (slit 0 1) (slit 0 1)) (mkQuat (slit 999 3) (slit 0 1) (slit 29 4) (slit 0 1)) test_grid (mkGBody (K := FltB) (j_init utils_bucket) (b_init utils_bucket) (t_init utils_bucket) (width utils_bucket) (mkVec (slit 0 1) (slit 0 1) (slit 0 1)) (mkQuat (slit 10 1) (slit 0 1) (slit 0 1) (slit 0 1)))))].
Example UT_CBM_8_pass : forallb id UT_CBM_8 = true.
Proof. vm_cast_no_check (@eq_refl bool true). Qed.

Definition UT_CBM_9 : list bool := [
  snd (check_body_movement (mkVec (slit 3 1) (slit 0 1) (slit 0 1)) (mkQuat (slit 10 1) (slit 0 1) (slit 0 1) (slit 0 1)) test_grid (mkGBody (K := FltB) (j_init utils_bucket) (b_init utils_bucket) (t_init utils_bucket) (width utils_bucket) (mkVec (slit 0 1) (slit 0 1) (slit 0 1)) (mkQuat (slit 10 1) (slit 0 1) (slit 0 1) (slit 0 1))));
  fst (check_body_movement (mkVec (slit 3 1) (slit 0 1) (slit 0 1)) (mkQuat (slit 10 1) (slit 0 1) (slit 0 1) (slit 0 1)) test_grid (mkGBody (K := FltB) (j_init utils_bucket) (b_init utils_bucket) (t_init utils_bucket) (width utils_bucket) (mkVec (slit 0 1) (slit 0 1) (slit 0 1)) (mkQuat (slit 10 1) (slit 0 1) (slit 0 1) (slit 0 1))))].
Example UT_CBM_9_pass : forallb id UT_CBM_9 = true.
Proof. vm_cast_no_check (@eq_refl bool true). Qed.

Definition UT_CN_1 : list bool := [
  vec_eqb (calc_normal (K := FltB) (mkVec (slit 0 1) (slit 0 1) (slit 0 1)) (mkVec (slit 23 1) (slit 0 1) (slit 0 1)) (mkVec (slit 23 1) (slit 245 2) (slit 0 1))) (mkVec (slit 0 1) (slit 0 1) (slit 10 1));
  vec_eqb (calc_normal (K := FltB) (mkVec (slit 0 1) (slit 0 1) (slit 0 1)) (mkVec (slit 23 1) (slit 245 2) (slit 0 1)) (mkVec (slit 23 1) (slit 0 1) (slit 0 1))) (mkVec (slit 0 1) (slit 0 1) (slit (-10) 1))].
Example UT_CN_1_pass : forallb id UT_CN_1 = true.
Proof. vm_cast_no_check (@eq_refl bool true). Qed.

Definition UT_CN_2 : list bool := [
  vec_eqb (calc_normal (K := FltB) (mkVec (slit 10 1) (slit 0 1) (slit (-13) 1)) (mkVec (slit 3 1) (slit 0 1) (slit 42 1)) (mkVec (slit 23 1) (slit 0 1) (slit 30 1))) (mkVec (slit 0 1) (slit 10 1) (slit 0 1));
  vec_eqb (calc_normal (K := FltB) (mkVec (slit 10 1) (slit 0 1) (slit (-13) 1)) (mkVec (slit 23 1) (slit 0 1) (slit 30 1)) (mkVec (slit 3 1) (slit 0 1) (slit 42 1))) (mkVec (slit 0 1) (slit (-10) 1) (slit 0 1))].
Example UT_CN_2_pass : forallb id UT_CN_2 = true.
Proof. vm_cast_no_check (@eq_refl bool true). Qed.

Definition UT_CN_3 : list bool := [
  vec_eqb (calc_normal (K := FltB) (mkVec (slit 0 1) (slit (-47) 1) (slit 13 1)) (mkVec (slit 0 1) (slit 72 1) (slit (-6) 1)) (mkVec (slit 0 1) (slit (-10) 1) (slit 543 1))) (mkVec (slit 10 1) (slit 0 1) (slit 0 1));
  vec_eqb (calc_normal (K := FltB) (mkVec (slit 0 1) (slit (-47) 1) (slit 13 1)) (mkVec (slit 0 1) (slit (-10) 1) (slit 543 1)) (mkVec (slit 0 1) (slit 72 1) (slit (-6) 1))) (mkVec (slit (-10) 1) (slit 0 1) (slit 0 1))].
Example UT_CN_3_pass : forallb id UT_CN_3 = true.
Proof. vm_cast_no_check (@eq_refl bool true). Qed.

Definition UT_CN_4 : list bool := [
  vec_eqb (calc_normal (K := FltB) (mkVec (slit 10 1) (slit 0 1) (slit 0 1)) (mkVec (slit 0 1) (slit 10 1) (slit 0 1)) (mkVec (slit 0 1) (slit 0 1) (slit 10 1))) (mkVec third_root third_root third_root);
  vec_eqb (calc_normal (K := FltB) (mkVec (slit 10 1) (slit 0 1) (slit 0 1)) (mkVec (slit 0 1) (slit 0 1) (slit 10 1)) (mkVec (slit 0 1) (slit 10 1) (slit 0 1))) (mkVec (SFopp third_root) (SFopp third_root) (SFopp third_root))].
Example UT_CN_4_pass : forallb id UT_CN_4 = true.
Proof. vm_cast_no_check (@eq_refl bool true). Qed.

Definition UT_MQ_1 : list bool := [
  expect_near (dlit 1 5) (qw (multiply_quaternion (K := FltB) (mkQuat (slit 707107 6) (slit 0 1) (slit 0 1) (slit (-707107) 6)) (mkQuat (slit 707107 6) (slit 0 1) (slit 0 1) (slit (-707107) 6)))) (dlit 0 1);
  expect_near (dlit 1 5) (qx (multiply_quaternion (K := FltB) (mkQuat (slit 707107 6) (slit 0 1) (slit 0 1) (slit (-707107) 6)) (mkQuat (slit 707107 6) (slit 0 1) (slit 0 1) (slit (-707107) 6)))) (dlit 0 1);
  expect_near (dlit 1 5) (qy (multiply_quaternion (K := FltB) (mkQuat (slit 707107 6) (slit 0 1) (slit 0 1) (slit (-707107) 6)) (mkQuat (slit 707107 6) (slit 0 1) (slit 0 1) (slit (-707107) 6)))) (dlit 0 1);
  expect_near (dlit 1 5) (qz (multiply_quaternion (K := FltB) (mkQuat (slit 707107 6) (slit 0 1) (slit 0 1) (slit (-707107) 6)) (mkQuat (slit 707107 6) (slit 0 1) (slit 0 1) (slit (-707107) 6)))) (dlit (-10) 1)].
Example UT_MQ_1_pass : forallb id UT_MQ_1 = true.
Proof. vm_cast_no_check (@eq_refl bool true). Qed.

Definition UT_MQ_2 : list bool := [
  expect_near (dlit 1 5) (qw (multiply_quaternion (K := FltB) (mkQuat (slit 707107 6) (slit 0 1) (slit (-707107) 6) (slit 0 1)) (mkQuat (slit 707107 6) (slit 0 1) (slit (-707107) 6) (slit 0 1)))) (dlit 0 1);
  expect_near (dlit 1 5) (qx (multiply_quaternion (K := FltB) (mkQuat (slit 707107 6) (slit 0 1) (slit (-707107) 6) (slit 0 1)) (mkQuat (slit 707107 6) (slit 0 1) (slit (-707107) 6) (slit 0 1)))) (dlit 0 1);
  expect_near (dlit 1 5) (qy (multiply_quaternion (K := FltB) (mkQuat (slit 707107 6) (slit 0 1) (slit (-707107) 6) (slit 0 1)) (mkQuat (slit 707107 6) (slit 0 1) (slit (-707107) 6) (slit 0 1)))) (dlit (-10) 1);
  expect_near (dlit 1 5) (qz (multiply_quaternion (K := FltB) (mkQuat (slit 707107 6) (slit 0 1) (slit (-707107) 6) (slit 0 1)) (mkQuat (slit 707107 6) (slit 0 1) (slit (-707107) 6) (slit 0 1)))) (dlit 0 1)].
Example UT_MQ_2_pass : forallb id UT_MQ_2 = true.
Proof. vm_cast_no_check (@eq_refl bool true). Qed.

Definition UT_MQ_3 : list bool := [
  expect_near (dlit 1 5) (qw (multiply_quaternion (K := FltB) (mkQuat (slit 707107 6) (slit (-707107) 6) (slit 0 1) (slit 0 1)) (mkQuat (slit 707107 6) (slit (-707107) 6) (slit 0 1) (slit 0 1)))) (dlit 0 1);
  expect_near (dlit 1 5) (qx (multiply_quaternion (K := FltB) (mkQuat (slit 707107 6) (slit (-707107) 6) (slit 0 1) (slit 0 1)) (mkQuat (slit 707107 6) (slit (-707107) 6) (slit 0 1) (slit 0 1)))) (dlit (-10) 1);
  expect_near (dlit 1 5) (qy (multiply_quaternion (K := FltB) (mkQuat (slit 707107 6) (slit (-707107) 6) (slit 0 1) (slit 0 1)) (mkQuat (slit 707107 6) (slit (-707107) 6) (slit 0 1) (slit 0 1)))) (dlit 0 1);
  expect_near (dlit 1 5) (qz (multiply_quaternion (K := FltB) (mkQuat (slit 707107 6) (slit (-707107) 6) (slit 0 1) (slit 0 1)) (mkQuat (slit 707107 6) (slit (-707107) 6) (slit 0 1) (slit 0 1)))) (dlit 0 1)].
Example UT_MQ_3_pass : forallb id UT_MQ_3 = true.
Proof. vm_cast_no_check (@eq_refl bool true). Qed.

Definition UT_MQ_4 : list bool := [
  expect_near (dlit 1 5) (qw (multiply_quaternion (K := FltB) (mkQuat (slit 8 1) (slit (-4) 1) (slit 2 1) (slit 7 1)) (mkQuat (slit 2 1) (slit 5 1) (slit (-7) 1) (slit (-8) 1)))) (dlit 106 2);
  expect_near (dlit 1 5) (qx (multiply_quaternion (K := FltB) (mkQuat (slit 8 1) (slit (-4) 1) (slit 2 1) (slit 7 1)) (mkQuat (slit 2 1) (slit 5 1) (slit (-7) 1) (slit (-8) 1)))) (dlit 65 2);
  expect_near (dlit 1 5) (qy (multiply_quaternion (K := FltB) (mkQuat (slit 8 1) (slit (-4) 1) (slit 2 1) (slit 7 1)) (mkQuat (slit 2 1) (slit 5 1) (slit (-7) 1) (slit (-8) 1)))) (dlit (-49) 2);
  expect_near (dlit 1 5) (qz (multiply_quaternion (K := FltB) (mkQuat (slit 8 1) (slit (-4) 1) (slit 2 1) (slit 7 1)) (mkQuat (slit 2 1) (slit 5 1) (slit (-7) 1) (slit (-8) 1)))) (dlit (-32) 2)].
Example UT_MQ_4_pass : forallb id UT_MQ_4 = true.
Proof. vm_cast_no_check (@eq_refl bool true). Qed.

Definition UT_CRQ_1 : list bool := [
  expect_near (dlit 1 5) (vx (calc_rotation_quaternion (K := FltB) (mkQuat (slit 707107 6) (slit 0 1) (slit 0 1) (slit (-707107) 6)) (mkVec (slit 1 1) (slit 1 1) (slit 3 1)))) (dlit (-1) 1);
  expect_near (dlit 1 5) (vy (calc_rotation_quaternion (K := FltB) (mkQuat (slit 707107 6) (slit 0 1) (slit 0 1) (slit (-707107) 6)) (mkVec (slit 1 1) (slit 1 1) (slit 3 1)))) (dlit 1 1);
  expect_near (dlit 1 5) (vz (calc_rotation_quaternion (K := FltB) (mkQuat (slit 707107 6) (slit 0 1) (slit 0 1) (slit (-707107) 6)) (mkVec (slit 1 1) (slit 1 1) (slit 3 1)))) (dlit 3 1)].
Example UT_CRQ_1_pass : forallb id UT_CRQ_1 = true.
Proof. vm_cast_no_check (@eq_refl bool true). Qed.

Definition UT_CRQ_2 : list bool := [
  expect_near (dlit 1 5) (vx (calc_rotation_quaternion (K := FltB) (mkQuat (slit 707107 6) (slit 0 1) (slit (-707107) 6) (slit 0 1)) (mkVec (slit 1 1) (slit 5 1) (slit 0 1)))) (dlit 0 1);
  expect_near (dlit 1 5) (vy (calc_rotation_quaternion (K := FltB) (mkQuat (slit 707107 6) (slit 0 1) (slit (-707107) 6) (slit 0 1)) (mkVec (slit 1 1) (slit 5 1) (slit 0 1)))) (dlit 5 1);
  expect_near (dlit 1 5) (vz (calc_rotation_quaternion (K := FltB) (mkQuat (slit 707107 6) (slit 0 1) (slit (-707107) 6) (slit 0 1)) (mkVec (slit 1 1) (slit 5 1) (slit 0 1)))) (dlit (-1) 1)].
Example UT_CRQ_2_pass : forallb id UT_CRQ_2 = true.
Proof. vm_cast_no_check (@eq_refl bool true). Qed.

Definition UT_CRQ_3 : list bool := [
  expect_near (dlit 1 5) (vx (calc_rotation_quaternion (K := FltB) (mkQuat (slit 707107 6) (slit (-707107) 6) (slit 0 1) (slit 0 1)) (mkVec (slit (-1) 1) (slit 3 1) (slit (-5) 1)))) (dlit (-1) 1);
  expect_near (dlit 1 5) (vy (calc_rotation_quaternion (K := FltB) (mkQuat (slit 707107 6) (slit (-707107) 6) (slit 0 1) (slit 0 1)) (mkVec (slit (-1) 1) (slit 3 1) (slit (-5) 1)))) (dlit 5 1);
  expect_near (dlit 1 5) (vz (calc_rotation_quaternion (K := FltB) (mkQuat (slit 707107 6) (slit (-707107) 6) (slit 0 1) (slit 0 1)) (mkVec (slit (-1) 1) (slit 3 1) (slit (-5) 1)))) (dlit 3 1)].
Example UT_CRQ_3_pass : forallb id UT_CRQ_3 = true.
Proof. vm_cast_no_check (@eq_refl bool true). Qed.

Definition UT_CRQ_4 : list bool := [
  expect_near (dlit 1 5) (vx (calc_rotation_quaternion (K := FltB) (mkQuat (slit 53 2) (slit (-21) 2) (slit 64 2) (slit (-33) 2)) (mkVec (slit (-15) 2) (slit 67 2) (slit (-12) 2)))) (dlit (-380155) 6);
  expect_near (dlit 1 5) (vy (calc_rotation_quaternion (K := FltB) (mkQuat (slit 53 2) (slit (-21) 2) (slit 64 2) (slit (-33) 2)) (mkVec (slit (-15) 2) (slit 67 2) (slit (-12) 2)))) (dlit 504297 6);
  expect_near (dlit 1 5) (vz (calc_rotation_quaternion (K := FltB) (mkQuat (slit 53 2) (slit (-21) 2) (slit 64 2) (slit (-33) 2)) (mkVec (slit (-15) 2) (slit 67 2) (slit (-12) 2)))) (dlit (-29490) 5)].
Example UT_CRQ_4_pass : forallb id UT_CRQ_4 = true.
Proof. vm_cast_no_check (@eq_refl bool true). Qed.

Definition UT_AQ_1 : list bool := [
  expect_near (dlit 1 5) (qw (angle_to_quat taylor_sin taylor_cos (mkVec (slit (-1570796327) 9) (slit 0 1) (slit 0 1)))) (dlit 707107 6);
  expect_near (dlit 1 5) (qx (angle_to_quat taylor_sin taylor_cos (mkVec (slit (-1570796327) 9) (slit 0 1) (slit 0 1)))) (dlit 0 1);
  expect_near (dlit 1 5) (qy (angle_to_quat taylor_sin taylor_cos (mkVec (slit (-1570796327) 9) (slit 0 1) (slit 0 1)))) (dlit 0 1);
  expect_near (dlit 1 5) (qz (angle_to_quat taylor_sin taylor_cos (mkVec (slit (-1570796327) 9) (slit 0 1) (slit 0 1)))) (dlit (-707107) 6)].
Example UT_AQ_1_pass : forallb id UT_AQ_1 = true.
Proof. vm_cast_no_check (@eq_refl bool true). Qed.

Definition UT_AQ_2 : list bool := [
  expect_near (dlit 1 5) (qw (angle_to_quat taylor_sin taylor_cos (mkVec (slit 0 1) (slit (-1570796327) 9) (slit 0 1)))) (dlit 707107 6);
  expect_near (dlit 1 5) (qx (angle_to_quat taylor_sin taylor_cos (mkVec (slit 0 1) (slit (-1570796327) 9) (slit 0 1)))) (dlit 0 1);
  expect_near (dlit 1 5) (qy (angle_to_quat taylor_sin taylor_cos (mkVec (slit 0 1) (slit (-1570796327) 9) (slit 0 1)))) (dlit (-707107) 6);
  expect_near (dlit 1 5) (qz (angle_to_quat taylor_sin taylor_cos (mkVec (slit 0 1) (slit (-1570796327) 9) (slit 0 1)))) (dlit 0 1)].
Example UT_AQ_2_pass : forallb id UT_AQ_2 = true.
Proof. vm_cast_no_check (@eq_refl bool true). Qed.

Definition UT_AQ_3 : list bool := [
  expect_near (dlit 1 5) (qw (angle_to_quat taylor_sin taylor_cos (mkVec (slit 0 1) (slit 0 1) (slit (-1570796327) 9)))) (dlit 707107 6);
  expect_near (dlit 1 5) (qx (angle_to_quat taylor_sin taylor_cos (mkVec (slit 0 1) (slit 0 1) (slit (-1570796327) 9)))) (dlit (-707107) 6);
  expect_near (dlit 1 5) (qy (angle_to_quat taylor_sin taylor_cos (mkVec (slit 0 1) (slit 0 1) (slit (-1570796327) 9)))) (dlit 0 1);
  expect_near (dlit 1 5) (qz (angle_to_quat taylor_sin taylor_cos (mkVec (slit 0 1) (slit 0 1) (slit (-1570796327) 9)))) (dlit 0 1)].
Example UT_AQ_3_pass : forallb id UT_AQ_3 = true.
Proof. vm_cast_no_check (@eq_refl bool true). Qed.

Definition UT_AQ_4 : list bool := [
  expect_near (dlit 1 5) (qw (angle_to_quat taylor_sin taylor_cos (mkVec (slit 53 2) (slit 12 1) (slit (-3) 1)))) (dlit 765481 6);
  expect_near (dlit 1 5) (qx (angle_to_quat taylor_sin taylor_cos (mkVec (slit 53 2) (slit 12 1) (slit (-3) 1)))) (dlit (-265256) 6);
  expect_near (dlit 1 5) (qy (angle_to_quat taylor_sin taylor_cos (mkVec (slit 53 2) (slit 12 1) (slit (-3) 1)))) (dlit 50651 5);
  expect_near (dlit 1 5) (qz (angle_to_quat taylor_sin taylor_cos (mkVec (slit 53 2) (slit 12 1) (slit (-3) 1)))) (dlit 295169 6)].
Example UT_AQ_4_pass : forallb id UT_AQ_4 = true.
Proof. vm_cast_no_check (@eq_refl bool true). Qed.

Definition UT_CBF_1 : list bool := [
  expect_near (dlit 1 5) (vx (calc_body_frame_pos 11 11 (slit 2 1) test_grid (mkGBody (K := FltB) (j_init utils_bucket) (b_init utils_bucket) (t_init utils_bucket) (width utils_bucket) (mkVec (slit 0 1) (slit 0 1) (slit 0 1)) (mkQuat (slit 10 1) (slit 0 1) (slit 0 1) (slit 0 1))))) (dlit 1 1);
  expect_near (dlit 1 5) (vy (calc_body_frame_pos 11 11 (slit 2 1) test_grid (mkGBody (K := FltB) (j_init utils_bucket) (b_init utils_bucket) (t_init utils_bucket) (width utils_bucket) (mkVec (slit 0 1) (slit 0 1) (slit 0 1)) (mkQuat (slit 10 1) (slit 0 1) (slit 0 1) (slit 0 1))))) (dlit 1 1);
  expect_near (dlit 1 5) (vz (calc_body_frame_pos 11 11 (slit 2 1) test_grid (mkGBody (K := FltB) (j_init utils_bucket) (b_init utils_bucket) (t_init utils_bucket) (width utils_bucket) (mkVec (slit 0 1) (slit 0 1) (slit 0 1)) (mkQuat (slit 10 1) (slit 0 1) (slit 0 1) (slit 0 1))))) (dlit 2 1)].
Example UT_CBF_1_pass : forallb id UT_CBF_1 = true.
Proof. vm_cast_no_check (@eq_refl bool true). Qed.

Definition UT_CBF_2 : list bool := [
  expect_near (dlit 1 5) (vx (calc_body_frame_pos 10 12 (slit (-2) 1) test_grid (mkGBody (K := FltB) (j_init utils_bucket) (b_init utils_bucket) (t_init utils_bucket) (width utils_bucket) (mkVec (slit (-1) 1) (slit 2 1) (slit 3 1)) (mkQuat (slit 10 1) (slit 0 1) (slit 0 1) (slit 0 1))))) (dlit 1 1);
  expect_near (dlit 1 5) (vy (calc_body_frame_pos 10 12 (slit (-2) 1) test_grid (mkGBody (K := FltB) (j_init utils_bucket) (b_init utils_bucket) (t_init utils_bucket) (width utils_bucket) (mkVec (slit (-1) 1) (slit 2 1) (slit 3 1)) (mkQuat (slit 10 1) (slit 0 1) (slit 0 1) (slit 0 1))))) (dlit 0 1);
  expect_near (dlit 1 5) (vz (calc_body_frame_pos 10 12 (slit (-2) 1) test_grid (mkGBody (K := FltB) (j_init utils_bucket) (b_init utils_bucket) (t_init utils_bucket) (width utils_bucket) (mkVec (slit (-1) 1) (slit 2 1) (slit 3 1)) (mkQuat (slit 10 1) (slit 0 1) (slit 0 1) (slit 0 1))))) (dlit (-5) 1)].
Example UT_CBF_2_pass : forallb id UT_CBF_2 = true.
Proof. vm_cast_no_check (@eq_refl bool true). Qed.

Definition UT_CBF_3 : list bool := [
  expect_near (dlit 1 5) (vx (calc_body_frame_pos 11 12 (slit 3 1) test_grid (mkGBody (K := FltB) (j_init utils_bucket) (b_init utils_bucket) (t_init utils_bucket) (width utils_bucket) (mkVec (slit 0 1) (slit 0 1) (slit 0 1)) (mkQuat (slit 707107 6) (slit 0 1) (slit 0 1) (slit (-707107) 6))))) (dlit 2 1);
  expect_near (dlit 1 5) (vy (calc_body_frame_pos 11 12 (slit 3 1) test_grid (mkGBody (K := FltB) (j_init utils_bucket) (b_init utils_bucket) (t_init utils_bucket) (width utils_bucket) (mkVec (slit 0 1) (slit 0 1) (slit 0 1)) (mkQuat (slit 707107 6) (slit 0 1) (slit 0 1) (slit (-707107) 6))))) (dlit (-1) 1);
  expect_near (dlit 1 5) (vz (calc_body_frame_pos 11 12 (slit 3 1) test_grid (mkGBody (K := FltB) (j_init utils_bucket) (b_init utils_bucket) (t_init utils_bucket) (width utils_bucket) (mkVec (slit 0 1) (slit 0 1) (slit 0 1)) (mkQuat (slit 707107 6) (slit 0 1) (slit 0 1) (slit (-707107) 6))))) (dlit 3 1)].
Example UT_CBF_3_pass : forallb id UT_CBF_3 = true.
Proof. vm_cast_no_check (@eq_refl bool true). Qed.

Definition UT_CBF_4 : list bool := [
  expect_near (dlit 1 5) (vx (calc_body_frame_pos 11 12 (slit 3 1) test_grid (mkGBody (K := FltB) (j_init utils_bucket) (b_init utils_bucket) (t_init utils_bucket) (width utils_bucket) (mkVec (slit 0 1) (slit 0 1) (slit 0 1)) (mkQuat (slit 707107 6) (slit 0 1) (slit (-707107) 6) (slit 0 1))))) (dlit (-3) 1);
  expect_near (dlit 1 5) (vy (calc_body_frame_pos 11 12 (slit 3 1) test_grid (mkGBody (K := FltB) (j_init utils_bucket) (b_init utils_bucket) (t_init utils_bucket) (width utils_bucket) (mkVec (slit 0 1) (slit 0 1) (slit 0 1)) (mkQuat (slit 707107 6) (slit 0 1) (slit (-707107) 6) (slit 0 1))))) (dlit 2 1);
  expect_near (dlit 1 5) (vz (calc_body_frame_pos 11 12 (slit 3 1) test_grid (mkGBody (K := FltB) (j_init utils_bucket) (b_init utils_bucket) (t_init utils_bucket) (width utils_bucket) (mkVec (slit 0 1) (slit 0 1) (slit 0 1)) (mkQuat (slit 707107 6) (slit 0 1) (slit (-707107) 6) (slit 0 1))))) (dlit 1 1)].
Example UT_CBF_4_pass : forallb id UT_CBF_4 = true.
Proof. vm_cast_no_check (@eq_refl bool true). Qed.

Definition UT_CBF_5 : list bool := [
  expect_near (dlit 1 5) (vx (calc_body_frame_pos 11 12 (slit 3 1) test_grid (mkGBody (K := FltB) (j_init utils_bucket) (b_init utils_bucket) (t_init utils_bucket) (width utils_bucket) (mkVec (slit 0 1) (slit 0 1) (slit 0 1)) (mkQuat (slit 707107 6) (slit 707107 6) (slit 0 1) (slit 0 1))))) (dlit 1 1);
  expect_near (dlit 1 5) (vy (calc_body_frame_pos 11 12 (slit 3 1) test_grid (mkGBody (K := FltB) (j_init utils_bucket) (b_init utils_bucket) (t_init utils_bucket) (width utils_bucket) (mkVec (slit 0 1) (slit 0 1) (slit 0 1)) (mkQuat (slit 707107 6) (slit 707107 6) (slit 0 1) (slit 0 1))))) (dlit (-3) 1);
  expect_near (dlit 1 5) (vz (calc_body_frame_pos 11 12 (slit 3 1) test_grid (mkGBody (K := FltB) (j_init utils_bucket) (b_init utils_bucket) (t_init utils_bucket) (width utils_bucket) (mkVec (slit 0 1) (slit 0 1) (slit 0 1)) (mkQuat (slit 707107 6) (slit 707107 6) (slit 0 1) (slit 0 1))))) (dlit 2 1)].
Example UT_CBF_5_pass : forallb id UT_CBF_5 = true.
Proof. vm_cast_no_check (@eq_refl bool true). Qed.

Definition UT_CBF_6 : list bool := [
  expect_near (dlit 1 5) (vx (calc_body_frame_pos 10 12 (slit (-2) 1) test_grid (mkGBody (K := FltB) (j_init utils_bucket) (b_init utils_bucket) (t_init utils_bucket) (width utils_bucket) (mkVec (slit (-1) 1) (slit 2 1) (slit 3 1)) (mkQuat (slit 707107 6) (slit 0 1) (slit 0 1) (slit (-707107) 6))))) (dlit 0 1);
  expect_near (dlit 1 5) (vy (calc_body_frame_pos 10 12 (slit (-2) 1) test_grid (mkGBody (K := FltB) (j_init utils_bucket) (b_init utils_bucket) (t_init utils_bucket) (width utils_bucket) (mkVec (slit (-1) 1) (slit 2 1) (slit 3 1)) (mkQuat (slit 707107 6) (slit 0 1) (slit 0 1) (slit (-707107) 6))))) (dlit (-1) 1);
  expect_near (dlit 1 5) (vz (calc_body_frame_pos 10 12 (slit (-2) 1) test_grid (mkGBody (K := FltB) (j_init utils_bucket) (b_init utils_bucket) (t_init utils_bucket) (width utils_bucket) (mkVec (slit (-1) 1) (slit 2 1) (slit 3 1)) (mkQuat (slit 707107 6) (slit 0 1) (slit 0 1) (slit (-707107) 6))))) (dlit (-5) 1)].
Example UT_CBF_6_pass : forallb id UT_CBF_6 = true.
Proof. vm_cast_no_check (@eq_refl bool true). Qed.
