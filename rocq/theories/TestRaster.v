(** The unit tests of test/unit_tests/test_body_pos.cpp:17-731 and
    913-1237, in binary32.
    Produced by tools/translate_geometry.py. *)
From Coq Require Import ZArith List Bool.
From Coq Require Import Floats.SpecFloat.
From Verif Require Import Outcome Num State Flt FltB ModelTypes ModelGeometry ModelBodyPos
  ModelUtils ModelRaster ModelProgram TestLang TestBinary32 TestGeoLang.
Import ListNotations.
Open Scope Z_scope.

Definition BP_CL_1 : list bool := [
  same_cells (calc_line_pos test_grid 100 (mkVec (nar (f := FltB) (dadd (f := FltB) (dlit 0 1) (dlit 1 5))) (nar (f := FltB) (dsub (f := FltB) (dlit 0 1) (dlit 1 5))) (nar (f := FltB) (dadd (f := FltB) (dlit (-6) 2) (dlit 1 5)))) (mkVec (nar (f := FltB) (dsub (f := FltB) (dlit 10 1) (dlit 1 5))) (nar (f := FltB) (dsub (f := FltB) (dlit 0 1) (dlit 1 5))) (nar (f := FltB) (dsub (f := FltB) (dlit 0 1) (dlit 1 5)))))
    [(10, 10, 9); (11, 10, 9); (12, 10, 9); (13, 10, 9); (14, 10, 9); (15, 10, 9); (16, 10, 9); (17, 10, 9); (18, 10, 9); (19, 10, 9); (20, 10, 9)];
  same_cells (calc_line_pos test_grid 100 (mkVec (nar (f := FltB) (dsub (f := FltB) (dlit 10 1) (dlit 1 5))) (nar (f := FltB) (dsub (f := FltB) (dlit 0 1) (dlit 1 5))) (nar (f := FltB) (dsub (f := FltB) (dlit 0 1) (dlit 1 5)))) (mkVec (nar (f := FltB) (dadd (f := FltB) (dlit 0 1) (dlit 1 5))) (nar (f := FltB) (dsub (f := FltB) (dlit 0 1) (dlit 1 5))) (nar (f := FltB) (dadd (f := FltB) (dlit (-6) 2) (dlit 1 5)))))
    [(10, 10, 9); (11, 10, 9); (12, 10, 9); (13, 10, 9); (14, 10, 9); (15, 10, 9); (16, 10, 9); (17, 10, 9); (18, 10, 9); (19, 10, 9); (20, 10, 9)]].
Example BP_CL_1_pass : forallb id BP_CL_1 = true.
Proof. vm_cast_no_check (@eq_refl bool true). Qed.

Definition BP_CL_2 : list bool := [
  same_cells (calc_line_pos test_grid 100 (mkVec (nar (f := FltB) (dadd (f := FltB) (dlit 4 2) (dlit 1 5))) (nar (f := FltB) (dsub (f := FltB) (dlit 4 2) (dlit 1 5))) (nar (f := FltB) (dadd (f := FltB) (dlit (-9) 2) (dlit 1 5)))) (mkVec (nar (f := FltB) (dsub (f := FltB) (dlit 104 2) (dlit 1 5))) (nar (f := FltB) (dadd (f := FltB) (dlit (-4) 2) (dlit 1 5))) (nar (f := FltB) (dsub (f := FltB) (dlit 0 1) (dlit 1 5)))))
    [(10, 10, 9); (11, 10, 9); (12, 10, 9); (13, 10, 9); (14, 10, 9); (15, 10, 9); (16, 10, 9); (17, 10, 9); (18, 10, 9); (19, 10, 9); (20, 10, 9)];
  same_cells (calc_line_pos test_grid 100 (mkVec (nar (f := FltB) (dsub (f := FltB) (dlit 104 2) (dlit 1 5))) (nar (f := FltB) (dadd (f := FltB) (dlit (-4) 2) (dlit 1 5))) (nar (f := FltB) (dsub (f := FltB) (dlit 0 1) (dlit 1 5)))) (mkVec (nar (f := FltB) (dadd (f := FltB) (dlit 4 2) (dlit 1 5))) (nar (f := FltB) (dsub (f := FltB) (dlit 4 2) (dlit 1 5))) (nar (f := FltB) (dadd (f := FltB) (dlit (-9) 2) (dlit 1 5)))))
    [(10, 10, 9); (11, 10, 9); (12, 10, 9); (13, 10, 9); (14, 10, 9); (15, 10, 9); (16, 10, 9); (17, 10, 9); (18, 10, 9); (19, 10, 9); (20, 10, 9)]].
Example BP_CL_2_pass : forallb id BP_CL_2 = true.
Proof. vm_cast_no_check (@eq_refl bool true). Qed.

Definition BP_CL_3 : list bool := [
  same_cells (calc_line_pos test_grid 100 (mkVec (nar (f := FltB) (dsub (f := FltB) (dlit 0 1) (dlit 1 5))) (nar (f := FltB) (dadd (f := FltB) (dlit 0 1) (dlit 1 5))) (nar (f := FltB) (dsub (f := FltB) (dlit 0 1) (dlit 1 5)))) (mkVec (nar (f := FltB) (dsub (f := FltB) (dlit 0 1) (dlit 1 5))) (nar (f := FltB) (dsub (f := FltB) (dlit 10 1) (dlit 1 5))) (nar (f := FltB) (dsub (f := FltB) (dlit 0 1) (dlit 1 5)))))
    [(10, 10, 9); (10, 11, 9); (10, 12, 9); (10, 13, 9); (10, 14, 9); (10, 15, 9); (10, 16, 9); (10, 17, 9); (10, 18, 9); (10, 19, 9); (10, 20, 9)];
  same_cells (calc_line_pos test_grid 100 (mkVec (nar (f := FltB) (dsub (f := FltB) (dlit 0 1) (dlit 1 5))) (nar (f := FltB) (dsub (f := FltB) (dlit 10 1) (dlit 1 5))) (nar (f := FltB) (dsub (f := FltB) (dlit 0 1) (dlit 1 5)))) (mkVec (nar (f := FltB) (dsub (f := FltB) (dlit 0 1) (dlit 1 5))) (nar (f := FltB) (dadd (f := FltB) (dlit 0 1) (dlit 1 5))) (nar (f := FltB) (dsub (f := FltB) (dlit 0 1) (dlit 1 5)))))
    [(10, 10, 9); (10, 11, 9); (10, 12, 9); (10, 13, 9); (10, 14, 9); (10, 15, 9); (10, 16, 9); (10, 17, 9); (10, 18, 9); (10, 19, 9); (10, 20, 9)]].
Example BP_CL_3_pass : forallb id BP_CL_3 = true.
Proof. vm_cast_no_check (@eq_refl bool true). Qed.

Definition BP_CL_4 : list bool := [
  same_cells (calc_line_pos test_grid 100 (mkVec (nar (f := FltB) (dadd (f := FltB) (dlit 34 2) (dlit 1 5))) (nar (f := FltB) (dadd (f := FltB) (dlit 56 2) (dlit 1 5))) (nar (f := FltB) (dsub (f := FltB) (dlit 0 1) (dlit 1 5)))) (mkVec (nar (f := FltB) (dsub (f := FltB) (dlit 74 2) (dlit 1 5))) (nar (f := FltB) (dsub (f := FltB) (dlit 97 2) (dlit 1 5))) (nar (f := FltB) (dsub (f := FltB) (dlit 0 1) (dlit 1 5)))))
    [(13, 16, 9); (14, 16, 9); (14, 17, 9); (15, 17, 9); (15, 18, 9); (16, 18, 9); (16, 19, 9); (17, 19, 9); (17, 20, 9)];
  same_cells (calc_line_pos test_grid 100 (mkVec (nar (f := FltB) (dsub (f := FltB) (dlit 74 2) (dlit 1 5))) (nar (f := FltB) (dsub (f := FltB) (dlit 97 2) (dlit 1 5))) (nar (f := FltB) (dsub (f := FltB) (dlit 0 1) (dlit 1 5)))) (mkVec (nar (f := FltB) (dadd (f := FltB) (dlit 34 2) (dlit 1 5))) (nar (f := FltB) (dadd (f := FltB) (dlit 56 2) (dlit 1 5))) (nar (f := FltB) (dsub (f := FltB) (dlit 0 1) (dlit 1 5)))))
    [(13, 16, 9); (14, 16, 9); (14, 17, 9); (15, 17, 9); (15, 18, 9); (16, 18, 9); (16, 19, 9); (17, 19, 9); (17, 20, 9)]].
Example BP_CL_4_pass : forallb id BP_CL_4 = true.
Proof. vm_cast_no_check (@eq_refl bool true). Qed.

Definition BP_CL_5 : list bool := [
  same_cells (calc_line_pos test_grid 100 (mkVec (nar (f := FltB) (dadd (f := FltB) (dlit 34 2) (dlit 1 8))) (nar (f := FltB) (dsub (f := FltB) (dlit 0 1) (dlit 1 8))) (nar (f := FltB) (dadd (f := FltB) (dlit 56 2) (dlit 1 8)))) (mkVec (nar (f := FltB) (dsub (f := FltB) (dlit 74 2) (dlit 1 8))) (nar (f := FltB) (dsub (f := FltB) (dlit 0 1) (dlit 1 8))) (nar (f := FltB) (dsub (f := FltB) (dlit 97 2) (dlit 1 8)))))
    [(13, 10, 15); (14, 10, 15); (14, 10, 16); (15, 10, 16); (15, 10, 17); (16, 10, 17); (16, 10, 18); (17, 10, 18); (17, 10, 19)];
  same_cells (calc_line_pos test_grid 100 (mkVec (nar (f := FltB) (dsub (f := FltB) (dlit 74 2) (dlit 1 8))) (nar (f := FltB) (dsub (f := FltB) (dlit 0 1) (dlit 1 8))) (nar (f := FltB) (dsub (f := FltB) (dlit 97 2) (dlit 1 8)))) (mkVec (nar (f := FltB) (dadd (f := FltB) (dlit 34 2) (dlit 1 8))) (nar (f := FltB) (dsub (f := FltB) (dlit 0 1) (dlit 1 8))) (nar (f := FltB) (dadd (f := FltB) (dlit 56 2) (dlit 1 8)))))
    [(13, 10, 15); (14, 10, 15); (14, 10, 16); (15, 10, 16); (15, 10, 17); (16, 10, 17); (16, 10, 18); (17, 10, 18); (17, 10, 19)]].
Example BP_CL_5_pass : forallb id BP_CL_5 = true.
Proof. vm_cast_no_check (@eq_refl bool true). Qed.

Definition BP_CL_6 : list bool := [
  same_cells (calc_line_pos test_grid 100 (mkVec (nar (f := FltB) (dsub (f := FltB) (dlit 5 1) (dlit 1 5))) (nar (f := FltB) (dsub (f := FltB) (dlit 5 1) (dlit 1 5))) (nar (f := FltB) (dsub (f := FltB) (dlit 5 1) (dlit 1 5)))) (mkVec (nar (f := FltB) (dsub (f := FltB) (dlit 5 1) (dlit 1 5))) (nar (f := FltB) (dsub (f := FltB) (dlit 5 1) (dlit 1 5))) (nar (f := FltB) (dsub (f := FltB) (dlit 5 1) (dlit 1 5)))))
    [(15, 15, 14)];
  same_cells (calc_line_pos test_grid 100 (mkVec (nar (f := FltB) (dsub (f := FltB) (dlit 5 1) (dlit 1 5))) (nar (f := FltB) (dsub (f := FltB) (dlit 5 1) (dlit 1 5))) (nar (f := FltB) (dsub (f := FltB) (dlit 5 1) (dlit 1 5)))) (mkVec (nar (f := FltB) (dsub (f := FltB) (dlit 5 1) (dlit 1 5))) (nar (f := FltB) (dsub (f := FltB) (dlit 5 1) (dlit 1 5))) (nar (f := FltB) (dsub (f := FltB) (dlit 5 1) (dlit 1 5)))))
    [(15, 15, 14)];
  same_cells (calc_line_pos test_grid 100 (mkVec (nar (f := FltB) (dsub (f := FltB) (dlit 55 2) (dlit 1 5))) (nar (f := FltB) (dsub (f := FltB) (dlit 55 2) (dlit 1 5))) (nar (f := FltB) (dsub (f := FltB) (dlit 55 2) (dlit 1 5)))) (mkVec (nar (f := FltB) (dsub (f := FltB) (dlit 55 2) (dlit 1 5))) (nar (f := FltB) (dsub (f := FltB) (dlit 55 2) (dlit 1 5))) (nar (f := FltB) (dsub (f := FltB) (dlit 55 2) (dlit 1 5)))))
    [(15, 15, 15)];
  same_cells (calc_line_pos test_grid 100 (mkVec (nar (f := FltB) (dsub (f := FltB) (dlit 55 2) (dlit 1 5))) (nar (f := FltB) (dsub (f := FltB) (dlit 55 2) (dlit 1 5))) (nar (f := FltB) (dsub (f := FltB) (dlit 55 2) (dlit 1 5)))) (mkVec (nar (f := FltB) (dsub (f := FltB) (dlit 55 2) (dlit 1 5))) (nar (f := FltB) (dsub (f := FltB) (dlit 55 2) (dlit 1 5))) (nar (f := FltB) (dsub (f := FltB) (dlit 55 2) (dlit 1 5)))))
    [(15, 15, 15)]].
Example BP_CL_6_pass : forallb id BP_CL_6 = true.
Proof. vm_cast_no_check (@eq_refl bool true). Qed.

Definition BP_DVR_1 : list bool := [
  count_is (decompose_vector_rectangle (K := FltB) (slit 1 5) (mkVec (slit 50 1) (slit 0 1) (slit 0 1)) (mkVec (slit 0 1) (slit 50 1) (slit 0 1)) (mkVec (slit 100 1) (slit 100 1) (slit 100 1)) 8 8 8 8) (25 * 4);
  inside_is (decompose_vector_rectangle (K := FltB) (slit 1 5) (mkVec (slit 50 1) (slit 0 1) (slit 0 1)) (mkVec (slit 0 1) (slit 50 1) (slit 0 1)) (mkVec (slit 100 1) (slit 100 1) (slit 100 1)) 8 8 8 8)
    [[false; false; false; false; false; false; false; false]; [false; false; false; false; false; false; false; false]; [false; false; true; true; true; true; true; false]; [false; false; true; true; true; true; true; false]; [false; false; true; true; true; true; true; false]; [false; false; true; true; true; true; true; false]; [false; false; true; true; true; true; true; false]; [false; false; false; false; false; false; false; false]];
  coeffs_near (decompose_vector_rectangle (K := FltB) (slit 1 5) (mkVec (slit 50 1) (slit 0 1) (slit 0 1)) (mkVec (slit 0 1) (slit 50 1) (slit 0 1)) (mkVec (slit 100 1) (slit 100 1) (slit 100 1)) 8 8 8 8) (dlit 1 0) (dlit 1 0)
    [[(dlit (-3) 1); (dlit (-3) 1); (dlit (-3) 1); (dlit (-3) 1); (dlit (-3) 1); (dlit (-3) 1); (dlit (-3) 1); (dlit (-3) 1)];
     [(dlit (-1) 1); (dlit (-1) 1); (dlit (-1) 1); (dlit (-1) 1); (dlit (-1) 1); (dlit (-1) 1); (dlit (-1) 1); (dlit (-1) 1)];
     [(dlit 1 1); (dlit 1 1); (dlit 1 1); (dlit 1 1); (dlit 1 1); (dlit 1 1); (dlit 1 1); (dlit 1 1)];
     [(dlit 3 1); (dlit 3 1); (dlit 3 1); (dlit 3 1); (dlit 3 1); (dlit 3 1); (dlit 3 1); (dlit 3 1)];
     [(dlit 5 1); (dlit 5 1); (dlit 5 1); (dlit 5 1); (dlit 5 1); (dlit 5 1); (dlit 5 1); (dlit 5 1)];
     [(dlit 7 1); (dlit 7 1); (dlit 7 1); (dlit 7 1); (dlit 7 1); (dlit 7 1); (dlit 7 1); (dlit 7 1)];
     [(dlit 9 1); (dlit 9 1); (dlit 9 1); (dlit 9 1); (dlit 9 1); (dlit 9 1); (dlit 9 1); (dlit 9 1)];
     [(dlit 11 1); (dlit 11 1); (dlit 11 1); (dlit 11 1); (dlit 11 1); (dlit 11 1); (dlit 11 1); (dlit 11 1)]]
    [[(dlit (-3) 1); (dlit (-1) 1); (dlit 1 1); (dlit 3 1); (dlit 5 1); (dlit 7 1); (dlit 9 1); (dlit 11 1)];
     [(dlit (-3) 1); (dlit (-1) 1); (dlit 1 1); (dlit 3 1); (dlit 5 1); (dlit 7 1); (dlit 9 1); (dlit 11 1)];
     [(dlit (-3) 1); (dlit (-1) 1); (dlit 1 1); (dlit 3 1); (dlit 5 1); (dlit 7 1); (dlit 9 1); (dlit 11 1)];
     [(dlit (-3) 1); (dlit (-1) 1); (dlit 1 1); (dlit 3 1); (dlit 5 1); (dlit 7 1); (dlit 9 1); (dlit 11 1)];
     [(dlit (-3) 1); (dlit (-1) 1); (dlit 1 1); (dlit 3 1); (dlit 5 1); (dlit 7 1); (dlit 9 1); (dlit 11 1)];
     [(dlit (-3) 1); (dlit (-1) 1); (dlit 1 1); (dlit 3 1); (dlit 5 1); (dlit 7 1); (dlit 9 1); (dlit 11 1)];
     [(dlit (-3) 1); (dlit (-1) 1); (dlit 1 1); (dlit 3 1); (dlit 5 1); (dlit 7 1); (dlit 9 1); (dlit 11 1)];
     [(dlit (-3) 1); (dlit (-1) 1); (dlit 1 1); (dlit 3 1); (dlit 5 1); (dlit 7 1); (dlit 9 1); (dlit 11 1)]]].
Example BP_DVR_1_pass : forallb id BP_DVR_1 = true.
Proof. vm_cast_no_check (@eq_refl bool true). Qed.

Definition BP_DVR_2 : list bool := [
  count_is (decompose_vector_rectangle (K := FltB) (slit 1 5) (mkVec (slit 57 1) (slit 0 1) (slit 0 1)) (mkVec (slit 0 1) (slit 47 1) (slit 0 1)) (mkVec (slit 97 1) (slit 103 1) (slit 43 1)) 8 8 8 8) (25 * 4);
  inside_is (decompose_vector_rectangle (K := FltB) (slit 1 5) (mkVec (slit 57 1) (slit 0 1) (slit 0 1)) (mkVec (slit 0 1) (slit 47 1) (slit 0 1)) (mkVec (slit 97 1) (slit 103 1) (slit 43 1)) 8 8 8 8)
    [[false; false; false; false; false; false; false; false]; [false; false; false; false; false; false; false; false]; [false; false; true; true; true; true; true; false]; [false; false; true; true; true; true; true; false]; [false; false; true; true; true; true; true; false]; [false; false; true; true; true; true; true; false]; [false; false; true; true; true; true; true; false]; [false; false; false; false; false; false; false; false]];
  coeffs_near (decompose_vector_rectangle (K := FltB) (slit 1 5) (mkVec (slit 57 1) (slit 0 1) (slit 0 1)) (mkVec (slit 0 1) (slit 47 1) (slit 0 1)) (mkVec (slit 97 1) (slit 103 1) (slit 43 1)) 8 8 8 8) (dlit 57 1) (dlit 47 1)
    [[(dlit (-12) 1); (dlit (-12) 1); (dlit (-12) 1); (dlit (-12) 1); (dlit (-12) 1); (dlit (-12) 1); (dlit (-12) 1); (dlit (-12) 1)];
     [(dlit (-2) 1); (dlit (-2) 1); (dlit (-2) 1); (dlit (-2) 1); (dlit (-2) 1); (dlit (-2) 1); (dlit (-2) 1); (dlit (-2) 1)];
     [(dlit 8 1); (dlit 8 1); (dlit 8 1); (dlit 8 1); (dlit 8 1); (dlit 8 1); (dlit 8 1); (dlit 8 1)];
     [(dlit 18 1); (dlit 18 1); (dlit 18 1); (dlit 18 1); (dlit 18 1); (dlit 18 1); (dlit 18 1); (dlit 18 1)];
     [(dlit 28 1); (dlit 28 1); (dlit 28 1); (dlit 28 1); (dlit 28 1); (dlit 28 1); (dlit 28 1); (dlit 28 1)];
     [(dlit 38 1); (dlit 38 1); (dlit 38 1); (dlit 38 1); (dlit 38 1); (dlit 38 1); (dlit 38 1); (dlit 38 1)];
     [(dlit 48 1); (dlit 48 1); (dlit 48 1); (dlit 48 1); (dlit 48 1); (dlit 48 1); (dlit 48 1); (dlit 48 1)];
     [(dlit 58 1); (dlit 58 1); (dlit 58 1); (dlit 58 1); (dlit 58 1); (dlit 58 1); (dlit 58 1); (dlit 58 1)]]
    [[(dlit (-18) 1); (dlit (-8) 1); (dlit 2 1); (dlit 12 1); (dlit 22 1); (dlit 32 1); (dlit 42 1); (dlit 52 1)];
     [(dlit (-18) 1); (dlit (-8) 1); (dlit 2 1); (dlit 12 1); (dlit 22 1); (dlit 32 1); (dlit 42 1); (dlit 52 1)];
     [(dlit (-18) 1); (dlit (-8) 1); (dlit 2 1); (dlit 12 1); (dlit 22 1); (dlit 32 1); (dlit 42 1); (dlit 52 1)];
     [(dlit (-18) 1); (dlit (-8) 1); (dlit 2 1); (dlit 12 1); (dlit 22 1); (dlit 32 1); (dlit 42 1); (dlit 52 1)];
     [(dlit (-18) 1); (dlit (-8) 1); (dlit 2 1); (dlit 12 1); (dlit 22 1); (dlit 32 1); (dlit 42 1); (dlit 52 1)];
     [(dlit (-18) 1); (dlit (-8) 1); (dlit 2 1); (dlit 12 1); (dlit 22 1); (dlit 32 1); (dlit 42 1); (dlit 52 1)];
     [(dlit (-18) 1); (dlit (-8) 1); (dlit 2 1); (dlit 12 1); (dlit 22 1); (dlit 32 1); (dlit 42 1); (dlit 52 1)];
     [(dlit (-18) 1); (dlit (-8) 1); (dlit 2 1); (dlit 12 1); (dlit 22 1); (dlit 32 1); (dlit 42 1); (dlit 52 1)]]].
Example BP_DVR_2_pass : forallb id BP_DVR_2 = true.
Proof. vm_cast_no_check (@eq_refl bool true). Qed.

Definition BP_DVR_3 : list bool := [
  count_is (decompose_vector_rectangle (K := FltB) (slit 1 5) (mkVec (slit 10 1) (slit 0 1) (slit 24 1)) (mkVec (slit 0 1) (slit 50 1) (slit (-3) 1)) (mkVec (slit 150 1) (slit 100 1) (slit 50 1)) 13 8 8 8) (5 * 4);
  inside_is (decompose_vector_rectangle (K := FltB) (slit 1 5) (mkVec (slit 10 1) (slit 0 1) (slit 24 1)) (mkVec (slit 0 1) (slit 50 1) (slit (-3) 1)) (mkVec (slit 150 1) (slit 100 1) (slit 50 1)) 13 8 8 8)
    [[false; false; false; false; false; false; false; false]; [false; false; false; false; false; false; false; false]; [false; false; true; true; true; true; true; false]; [false; false; false; false; false; false; false; false]; [false; false; false; false; false; false; false; false]; [false; false; false; false; false; false; false; false]; [false; false; false; false; false; false; false; false]; [false; false; false; false; false; false; false; false]];
  coeffs_near (decompose_vector_rectangle (K := FltB) (slit 1 5) (mkVec (slit 10 1) (slit 0 1) (slit 24 1)) (mkVec (slit 0 1) (slit 50 1) (slit (-3) 1)) (mkVec (slit 150 1) (slit 100 1) (slit 50 1)) 13 8 8 8) (dlit 1 0) (dlit 1 0)
    [[(dlit (-15) 1); (dlit (-15) 1); (dlit (-15) 1); (dlit (-15) 1); (dlit (-15) 1); (dlit (-15) 1); (dlit (-15) 1); (dlit (-15) 1)];
     [(dlit (-5) 1); (dlit (-5) 1); (dlit (-5) 1); (dlit (-5) 1); (dlit (-5) 1); (dlit (-5) 1); (dlit (-5) 1); (dlit (-5) 1)];
     [(dlit 5 1); (dlit 5 1); (dlit 5 1); (dlit 5 1); (dlit 5 1); (dlit 5 1); (dlit 5 1); (dlit 5 1)];
     [(dlit 15 1); (dlit 15 1); (dlit 15 1); (dlit 15 1); (dlit 15 1); (dlit 15 1); (dlit 15 1); (dlit 15 1)];
     [(dlit 25 1); (dlit 25 1); (dlit 25 1); (dlit 25 1); (dlit 25 1); (dlit 25 1); (dlit 25 1); (dlit 25 1)];
     [(dlit 35 1); (dlit 35 1); (dlit 35 1); (dlit 35 1); (dlit 35 1); (dlit 35 1); (dlit 35 1); (dlit 35 1)];
     [(dlit 45 1); (dlit 45 1); (dlit 45 1); (dlit 45 1); (dlit 45 1); (dlit 45 1); (dlit 45 1); (dlit 45 1)];
     [(dlit 55 1); (dlit 55 1); (dlit 55 1); (dlit 55 1); (dlit 55 1); (dlit 55 1); (dlit 55 1); (dlit 55 1)]]
    [[(dlit (-3) 1); (dlit (-1) 1); (dlit 1 1); (dlit 3 1); (dlit 5 1); (dlit 7 1); (dlit 9 1); (dlit 11 1)];
     [(dlit (-3) 1); (dlit (-1) 1); (dlit 1 1); (dlit 3 1); (dlit 5 1); (dlit 7 1); (dlit 9 1); (dlit 11 1)];
     [(dlit (-3) 1); (dlit (-1) 1); (dlit 1 1); (dlit 3 1); (dlit 5 1); (dlit 7 1); (dlit 9 1); (dlit 11 1)];
     [(dlit (-3) 1); (dlit (-1) 1); (dlit 1 1); (dlit 3 1); (dlit 5 1); (dlit 7 1); (dlit 9 1); (dlit 11 1)];
     [(dlit (-3) 1); (dlit (-1) 1); (dlit 1 1); (dlit 3 1); (dlit 5 1); (dlit 7 1); (dlit 9 1); (dlit 11 1)];
     [(dlit (-3) 1); (dlit (-1) 1); (dlit 1 1); (dlit 3 1); (dlit 5 1); (dlit 7 1); (dlit 9 1); (dlit 11 1)];
     [(dlit (-3) 1); (dlit (-1) 1); (dlit 1 1); (dlit 3 1); (dlit 5 1); (dlit 7 1); (dlit 9 1); (dlit 11 1)];
     [(dlit (-3) 1); (dlit (-1) 1); (dlit 1 1); (dlit 3 1); (dlit 5 1); (dlit 7 1); (dlit 9 1); (dlit 11 1)]]].
Example BP_DVR_3_pass : forallb id BP_DVR_3 = true.
Proof. vm_cast_no_check (@eq_refl bool true). Qed.

Definition BP_DVR_4 : list bool := [
  count_is (decompose_vector_rectangle (K := FltB) (slit 1 5) (mkVec (slit 23 1) (slit 12 1) (slit 24 1)) (mkVec (slit 46 1) (slit 24 1) (slit (-3) 1)) (mkVec (slit 142 1) (slit 103 1) (slit 50 1)) 13 9 8 8) (0);
  inside_none (decompose_vector_rectangle (K := FltB) (slit 1 5) (mkVec (slit 23 1) (slit 12 1) (slit 24 1)) (mkVec (slit 46 1) (slit 24 1) (slit (-3) 1)) (mkVec (slit 142 1) (slit 103 1) (slit 50 1)) 13 9 8 8)].
Example BP_DVR_4_pass : forallb id BP_DVR_4 = true.
Proof. vm_cast_no_check (@eq_refl bool true). Qed.

Definition BP_DVR_5 : list bool := [
  count_is (decompose_vector_rectangle (K := FltB) (slit 1 5) (mkVec (slit 0 1) (slit 0 1) (slit 0 1)) (mkVec (slit 0 1) (slit 0 1) (slit 0 1)) (mkVec (slit 142 1) (slit 103 1) (slit 50 1)) 13 9 8 8) (0);
  inside_none (decompose_vector_rectangle (K := FltB) (slit 1 5) (mkVec (slit 0 1) (slit 0 1) (slit 0 1)) (mkVec (slit 0 1) (slit 0 1) (slit 0 1)) (mkVec (slit 142 1) (slit 103 1) (slit 50 1)) 13 9 8 8)].
Example BP_DVR_5_pass : forallb id BP_DVR_5 = true.
Proof. vm_cast_no_check (@eq_refl bool true). Qed.

Definition BP_DVT_1 : list bool := [
  count_is (decompose_vector_triangle (K := FltB) (slit 1 5) (mkVec (slit 100 1) (slit 0 1) (slit 0 1)) (mkVec (slit 0 1) (slit 100 1) (slit 0 1)) (mkVec (slit 100 1) (slit 100 1) (slit 100 1)) 9 9 11 10) (45 * 4);
  inside_is (decompose_vector_triangle (K := FltB) (slit 1 5) (mkVec (slit 100 1) (slit 0 1) (slit 0 1)) (mkVec (slit 0 1) (slit 100 1) (slit 0 1)) (mkVec (slit 100 1) (slit 100 1) (slit 100 1)) 9 9 11 10)
    [[false; false; false; false; false; false; false; false; false; false]; [false; true; true; true; true; true; true; true; true; true]; [false; true; true; true; true; true; true; true; true; false]; [false; true; true; true; true; true; true; true; false; false]; [false; true; true; true; true; true; true; false; false; false]; [false; true; true; true; true; true; false; false; false; false]; [false; true; true; true; true; false; false; false; false; false]; [false; true; true; true; false; false; false; false; false; false]; [false; true; true; false; false; false; false; false; false; false]; [false; true; false; false; false; false; false; false; false; false]; [false; false; false; false; false; false; false; false; false; false]];
  coeffs_near (decompose_vector_triangle (K := FltB) (slit 1 5) (mkVec (slit 100 1) (slit 0 1) (slit 0 1)) (mkVec (slit 0 1) (slit 100 1) (slit 0 1)) (mkVec (slit 100 1) (slit 100 1) (slit 100 1)) 9 9 11 10) (dlit 1 0) (dlit 1 0)
    [[(dlit (-5) 2); (dlit (-5) 2); (dlit (-5) 2); (dlit (-5) 2); (dlit (-5) 2); (dlit (-5) 2); (dlit (-5) 2); (dlit (-5) 2); (dlit (-5) 2); (dlit (-5) 2)];
     [(dlit 5 2); (dlit 5 2); (dlit 5 2); (dlit 5 2); (dlit 5 2); (dlit 5 2); (dlit 5 2); (dlit 5 2); (dlit 5 2); (dlit 5 2)];
     [(dlit 15 2); (dlit 15 2); (dlit 15 2); (dlit 15 2); (dlit 15 2); (dlit 15 2); (dlit 15 2); (dlit 15 2); (dlit 15 2); (dlit 15 2)];
     [(dlit 25 2); (dlit 25 2); (dlit 25 2); (dlit 25 2); (dlit 25 2); (dlit 25 2); (dlit 25 2); (dlit 25 2); (dlit 25 2); (dlit 25 2)];
     [(dlit 35 2); (dlit 35 2); (dlit 35 2); (dlit 35 2); (dlit 35 2); (dlit 35 2); (dlit 35 2); (dlit 35 2); (dlit 35 2); (dlit 35 2)];
     [(dlit 45 2); (dlit 45 2); (dlit 45 2); (dlit 45 2); (dlit 45 2); (dlit 45 2); (dlit 45 2); (dlit 45 2); (dlit 45 2); (dlit 45 2)];
     [(dlit 55 2); (dlit 55 2); (dlit 55 2); (dlit 55 2); (dlit 55 2); (dlit 55 2); (dlit 55 2); (dlit 55 2); (dlit 55 2); (dlit 55 2)];
     [(dlit 65 2); (dlit 65 2); (dlit 65 2); (dlit 65 2); (dlit 65 2); (dlit 65 2); (dlit 65 2); (dlit 65 2); (dlit 65 2); (dlit 65 2)];
     [(dlit 75 2); (dlit 75 2); (dlit 75 2); (dlit 75 2); (dlit 75 2); (dlit 75 2); (dlit 75 2); (dlit 75 2); (dlit 75 2); (dlit 75 2)];
     [(dlit 85 2); (dlit 85 2); (dlit 85 2); (dlit 85 2); (dlit 85 2); (dlit 85 2); (dlit 85 2); (dlit 85 2); (dlit 85 2); (dlit 85 2)];
     [(dlit 95 2); (dlit 95 2); (dlit 95 2); (dlit 95 2); (dlit 95 2); (dlit 95 2); (dlit 95 2); (dlit 95 2); (dlit 95 2); (dlit 95 2)]]
    [[(dlit (-5) 2); (dlit 5 2); (dlit 15 2); (dlit 25 2); (dlit 35 2); (dlit 45 2); (dlit 55 2); (dlit 65 2); (dlit 75 2); (dlit 85 2)];
     [(dlit (-5) 2); (dlit 5 2); (dlit 15 2); (dlit 25 2); (dlit 35 2); (dlit 45 2); (dlit 55 2); (dlit 65 2); (dlit 75 2); (dlit 85 2)];
     [(dlit (-5) 2); (dlit 5 2); (dlit 15 2); (dlit 25 2); (dlit 35 2); (dlit 45 2); (dlit 55 2); (dlit 65 2); (dlit 75 2); (dlit 85 2)];
     [(dlit (-5) 2); (dlit 5 2); (dlit 15 2); (dlit 25 2); (dlit 35 2); (dlit 45 2); (dlit 55 2); (dlit 65 2); (dlit 75 2); (dlit 85 2)];
     [(dlit (-5) 2); (dlit 5 2); (dlit 15 2); (dlit 25 2); (dlit 35 2); (dlit 45 2); (dlit 55 2); (dlit 65 2); (dlit 75 2); (dlit 85 2)];
     [(dlit (-5) 2); (dlit 5 2); (dlit 15 2); (dlit 25 2); (dlit 35 2); (dlit 45 2); (dlit 55 2); (dlit 65 2); (dlit 75 2); (dlit 85 2)];
     [(dlit (-5) 2); (dlit 5 2); (dlit 15 2); (dlit 25 2); (dlit 35 2); (dlit 45 2); (dlit 55 2); (dlit 65 2); (dlit 75 2); (dlit 85 2)];
     [(dlit (-5) 2); (dlit 5 2); (dlit 15 2); (dlit 25 2); (dlit 35 2); (dlit 45 2); (dlit 55 2); (dlit 65 2); (dlit 75 2); (dlit 85 2)];
     [(dlit (-5) 2); (dlit 5 2); (dlit 15 2); (dlit 25 2); (dlit 35 2); (dlit 45 2); (dlit 55 2); (dlit 65 2); (dlit 75 2); (dlit 85 2)];
     [(dlit (-5) 2); (dlit 5 2); (dlit 15 2); (dlit 25 2); (dlit 35 2); (dlit 45 2); (dlit 55 2); (dlit 65 2); (dlit 75 2); (dlit 85 2)];
     [(dlit (-5) 2); (dlit 5 2); (dlit 15 2); (dlit 25 2); (dlit 35 2); (dlit 45 2); (dlit 55 2); (dlit 65 2); (dlit 75 2); (dlit 85 2)]]].
Example BP_DVT_1_pass : forallb id BP_DVT_1 = true.
Proof. vm_cast_no_check (@eq_refl bool true). Qed.

Definition BP_DVT_2 : list bool := [
  count_is (decompose_vector_triangle (K := FltB) (slit 1 5) (mkVec (slit 97 1) (slit 0 1) (slit 0 1)) (mkVec (slit 0 1) (slit 104 1) (slit 0 1)) (mkVec (slit 99 1) (slit 97 1) (slit 100 1)) 9 9 11 10) (45 * 4);
  inside_is (decompose_vector_triangle (K := FltB) (slit 1 5) (mkVec (slit 97 1) (slit 0 1) (slit 0 1)) (mkVec (slit 0 1) (slit 104 1) (slit 0 1)) (mkVec (slit 99 1) (slit 97 1) (slit 100 1)) 9 9 11 10)
    [[false; false; false; false; false; false; false; false; false; false]; [false; true; true; true; true; true; true; true; true; true]; [false; true; true; true; true; true; true; true; true; false]; [false; true; true; true; true; true; true; true; false; false]; [false; true; true; true; true; true; true; false; false; false]; [false; true; true; true; true; true; false; false; false; false]; [false; true; true; true; true; false; false; false; false; false]; [false; true; true; true; false; false; false; false; false; false]; [false; true; true; false; false; false; false; false; false; false]; [false; true; false; false; false; false; false; false; false; false]; [false; false; false; false; false; false; false; false; false; false]];
  coeffs_near (decompose_vector_triangle (K := FltB) (slit 1 5) (mkVec (slit 97 1) (slit 0 1) (slit 0 1)) (mkVec (slit 0 1) (slit 104 1) (slit 0 1)) (mkVec (slit 99 1) (slit 97 1) (slit 100 1)) 9 9 11 10) (dlit 97 1) (dlit 104 1)
    [[(dlit (-4) 1); (dlit (-4) 1); (dlit (-4) 1); (dlit (-4) 1); (dlit (-4) 1); (dlit (-4) 1); (dlit (-4) 1); (dlit (-4) 1); (dlit (-4) 1); (dlit (-4) 1)];
     [(dlit 6 1); (dlit 6 1); (dlit 6 1); (dlit 6 1); (dlit 6 1); (dlit 6 1); (dlit 6 1); (dlit 6 1); (dlit 6 1); (dlit 6 1)];
     [(dlit 16 1); (dlit 16 1); (dlit 16 1); (dlit 16 1); (dlit 16 1); (dlit 16 1); (dlit 16 1); (dlit 16 1); (dlit 16 1); (dlit 16 1)];
     [(dlit 26 1); (dlit 26 1); (dlit 26 1); (dlit 26 1); (dlit 26 1); (dlit 26 1); (dlit 26 1); (dlit 26 1); (dlit 26 1); (dlit 26 1)];
     [(dlit 36 1); (dlit 36 1); (dlit 36 1); (dlit 36 1); (dlit 36 1); (dlit 36 1); (dlit 36 1); (dlit 36 1); (dlit 36 1); (dlit 36 1)];
     [(dlit 46 1); (dlit 46 1); (dlit 46 1); (dlit 46 1); (dlit 46 1); (dlit 46 1); (dlit 46 1); (dlit 46 1); (dlit 46 1); (dlit 46 1)];
     [(dlit 56 1); (dlit 56 1); (dlit 56 1); (dlit 56 1); (dlit 56 1); (dlit 56 1); (dlit 56 1); (dlit 56 1); (dlit 56 1); (dlit 56 1)];
     [(dlit 66 1); (dlit 66 1); (dlit 66 1); (dlit 66 1); (dlit 66 1); (dlit 66 1); (dlit 66 1); (dlit 66 1); (dlit 66 1); (dlit 66 1)];
     [(dlit 76 1); (dlit 76 1); (dlit 76 1); (dlit 76 1); (dlit 76 1); (dlit 76 1); (dlit 76 1); (dlit 76 1); (dlit 76 1); (dlit 76 1)];
     [(dlit 86 1); (dlit 86 1); (dlit 86 1); (dlit 86 1); (dlit 86 1); (dlit 86 1); (dlit 86 1); (dlit 86 1); (dlit 86 1); (dlit 86 1)];
     [(dlit 96 1); (dlit 96 1); (dlit 96 1); (dlit 96 1); (dlit 96 1); (dlit 96 1); (dlit 96 1); (dlit 96 1); (dlit 96 1); (dlit 96 1)]]
    [[(dlit (-2) 1); (dlit 8 1); (dlit 18 1); (dlit 28 1); (dlit 38 1); (dlit 48 1); (dlit 58 1); (dlit 68 1); (dlit 78 1); (dlit 88 1)];
     [(dlit (-2) 1); (dlit 8 1); (dlit 18 1); (dlit 28 1); (dlit 38 1); (dlit 48 1); (dlit 58 1); (dlit 68 1); (dlit 78 1); (dlit 88 1)];
     [(dlit (-2) 1); (dlit 8 1); (dlit 18 1); (dlit 28 1); (dlit 38 1); (dlit 48 1); (dlit 58 1); (dlit 68 1); (dlit 78 1); (dlit 88 1)];
     [(dlit (-2) 1); (dlit 8 1); (dlit 18 1); (dlit 28 1); (dlit 38 1); (dlit 48 1); (dlit 58 1); (dlit 68 1); (dlit 78 1); (dlit 88 1)];
     [(dlit (-2) 1); (dlit 8 1); (dlit 18 1); (dlit 28 1); (dlit 38 1); (dlit 48 1); (dlit 58 1); (dlit 68 1); (dlit 78 1); (dlit 88 1)];
     [(dlit (-2) 1); (dlit 8 1); (dlit 18 1); (dlit 28 1); (dlit 38 1); (dlit 48 1); (dlit 58 1); (dlit 68 1); (dlit 78 1); (dlit 88 1)];
     [(dlit (-2) 1); (dlit 8 1); (dlit 18 1); (dlit 28 1); (dlit 38 1); (dlit 48 1); (dlit 58 1); (dlit 68 1); (dlit 78 1); (dlit 88 1)];
     [(dlit (-2) 1); (dlit 8 1); (dlit 18 1); (dlit 28 1); (dlit 38 1); (dlit 48 1); (dlit 58 1); (dlit 68 1); (dlit 78 1); (dlit 88 1)];
     [(dlit (-2) 1); (dlit 8 1); (dlit 18 1); (dlit 28 1); (dlit 38 1); (dlit 48 1); (dlit 58 1); (dlit 68 1); (dlit 78 1); (dlit 88 1)];
     [(dlit (-2) 1); (dlit 8 1); (dlit 18 1); (dlit 28 1); (dlit 38 1); (dlit 48 1); (dlit 58 1); (dlit 68 1); (dlit 78 1); (dlit 88 1)];
     [(dlit (-2) 1); (dlit 8 1); (dlit 18 1); (dlit 28 1); (dlit 38 1); (dlit 48 1); (dlit 58 1); (dlit 68 1); (dlit 78 1); (dlit 88 1)]]].
Example BP_DVT_2_pass : forallb id BP_DVT_2 = true.
Proof. vm_cast_no_check (@eq_refl bool true). Qed.

Definition BP_DVT_3 : list bool := [
  count_is (decompose_vector_triangle (K := FltB) (slit 1 5) (mkVec (slit 10 1) (slit 0 1) (slit 0 1)) (mkVec (slit 10 1) (slit 50 1) (slit 0 1)) (mkVec (slit 150 1) (slit 100 1) (slit 100 1)) 13 8 8 8) (2 * 4);
  inside_is (decompose_vector_triangle (K := FltB) (slit 1 5) (mkVec (slit 10 1) (slit 0 1) (slit 0 1)) (mkVec (slit 10 1) (slit 50 1) (slit 0 1)) (mkVec (slit 150 1) (slit 100 1) (slit 100 1)) 13 8 8 8)
    [[false; false; false; false; false; false; false; false]; [false; false; false; false; false; false; false; false]; [false; false; true; true; false; false; false; false]; [false; false; false; false; false; false; false; false]; [false; false; false; false; false; false; false; false]; [false; false; false; false; false; false; false; false]; [false; false; false; false; false; false; false; false]; [false; false; false; false; false; false; false; false]];
  coeffs_near (decompose_vector_triangle (K := FltB) (slit 1 5) (mkVec (slit 10 1) (slit 0 1) (slit 0 1)) (mkVec (slit 10 1) (slit 50 1) (slit 0 1)) (mkVec (slit 150 1) (slit 100 1) (slit 100 1)) 13 8 8 8) (dlit 1 0) (dlit 1 0)
    [[(dlit (-12) 1); (dlit (-14) 1); (dlit (-16) 1); (dlit (-18) 1); (dlit (-20) 1); (dlit (-22) 1); (dlit (-24) 1); (dlit (-26) 1)];
     [(dlit (-2) 1); (dlit (-4) 1); (dlit (-6) 1); (dlit (-8) 1); (dlit (-10) 1); (dlit (-12) 1); (dlit (-14) 1); (dlit (-16) 1)];
     [(dlit 8 1); (dlit 6 1); (dlit 4 1); (dlit 2 1); (dlit 0 1); (dlit (-2) 1); (dlit (-4) 1); (dlit (-6) 1)];
     [(dlit 18 1); (dlit 16 1); (dlit 14 1); (dlit 12 1); (dlit 10 1); (dlit 8 1); (dlit 6 1); (dlit 4 1)];
     [(dlit 28 1); (dlit 26 1); (dlit 24 1); (dlit 22 1); (dlit 20 1); (dlit 18 1); (dlit 16 1); (dlit 14 1)];
     [(dlit 38 1); (dlit 36 1); (dlit 34 1); (dlit 32 1); (dlit 30 1); (dlit 28 1); (dlit 26 1); (dlit 24 1)];
     [(dlit 48 1); (dlit 46 1); (dlit 44 1); (dlit 42 1); (dlit 40 1); (dlit 38 1); (dlit 36 1); (dlit 34 1)];
     [(dlit 58 1); (dlit 56 1); (dlit 54 1); (dlit 52 1); (dlit 50 1); (dlit 48 1); (dlit 46 1); (dlit 44 1)]]
    [[(dlit (-3) 1); (dlit (-1) 1); (dlit 1 1); (dlit 3 1); (dlit 5 1); (dlit 7 1); (dlit 9 1); (dlit 11 1)];
     [(dlit (-3) 1); (dlit (-1) 1); (dlit 1 1); (dlit 3 1); (dlit 5 1); (dlit 7 1); (dlit 9 1); (dlit 11 1)];
     [(dlit (-3) 1); (dlit (-1) 1); (dlit 1 1); (dlit 3 1); (dlit 5 1); (dlit 7 1); (dlit 9 1); (dlit 11 1)];
     [(dlit (-3) 1); (dlit (-1) 1); (dlit 1 1); (dlit 3 1); (dlit 5 1); (dlit 7 1); (dlit 9 1); (dlit 11 1)];
     [(dlit (-3) 1); (dlit (-1) 1); (dlit 1 1); (dlit 3 1); (dlit 5 1); (dlit 7 1); (dlit 9 1); (dlit 11 1)];
     [(dlit (-3) 1); (dlit (-1) 1); (dlit 1 1); (dlit 3 1); (dlit 5 1); (dlit 7 1); (dlit 9 1); (dlit 11 1)];
     [(dlit (-3) 1); (dlit (-1) 1); (dlit 1 1); (dlit 3 1); (dlit 5 1); (dlit 7 1); (dlit 9 1); (dlit 11 1)];
     [(dlit (-3) 1); (dlit (-1) 1); (dlit 1 1); (dlit 3 1); (dlit 5 1); (dlit 7 1); (dlit 9 1); (dlit 11 1)]]].
Example BP_DVT_3_pass : forallb id BP_DVT_3 = true.
Proof. vm_cast_no_check (@eq_refl bool true). Qed.

Definition BP_DVT_4 : list bool := [
  count_is (decompose_vector_triangle (K := FltB) (slit 1 5) (mkVec (slit 14 1) (slit 7 1) (slit 0 1)) (mkVec (slit 28 1) (slit 14 1) (slit 0 1)) (mkVec (slit 150 1) (slit 100 1) (slit 100 1)) 13 8 8 8) (0);
  inside_none (decompose_vector_triangle (K := FltB) (slit 1 5) (mkVec (slit 14 1) (slit 7 1) (slit 0 1)) (mkVec (slit 28 1) (slit 14 1) (slit 0 1)) (mkVec (slit 150 1) (slit 100 1) (slit 100 1)) 13 8 8 8)].
Example BP_DVT_4_pass : forallb id BP_DVT_4 = true.
Proof. vm_cast_no_check (@eq_refl bool true). Qed.

Definition BP_DVT_5 : list bool := [
  count_is (decompose_vector_triangle (K := FltB) (slit 1 5) (mkVec (slit 0 1) (slit 0 1) (slit 0 1)) (mkVec (slit 0 1) (slit 0 1) (slit 0 1)) (mkVec (slit 150 1) (slit 100 1) (slit 100 1)) 13 8 8 8) (0);
  inside_none (decompose_vector_triangle (K := FltB) (slit 1 5) (mkVec (slit 0 1) (slit 0 1) (slit 0 1)) (mkVec (slit 0 1) (slit 0 1) (slit 0 1)) (mkVec (slit 150 1) (slit 100 1) (slit 100 1)) 13 8 8 8)].
Example BP_DVT_5_pass : forallb id BP_DVT_5 = true.
Proof. vm_cast_no_check (@eq_refl bool true). Qed.

Definition BP_CR_1 : list bool := [
  same_cells (calc_rectangle_pos test_grid (slit 1 5) 100 (mkVec (nar (f := FltB) (dadd (f := FltB) (dlit 0 1) (dlit 1 5))) (nar (f := FltB) (dadd (f := FltB) (dlit 0 1) (dlit 1 5))) (nar (f := FltB) (dsub (f := FltB) (dlit 0 1) (dlit 1 5)))) (mkVec (nar (f := FltB) (dsub (f := FltB) (dlit 5 1) (dlit 1 5))) (nar (f := FltB) (dadd (f := FltB) (dlit 0 1) (dlit 1 5))) (nar (f := FltB) (dsub (f := FltB) (dlit 0 1) (dlit 1 5)))) (mkVec (nar (f := FltB) (dsub (f := FltB) (dlit 5 1) (dlit 1 5))) (nar (f := FltB) (dsub (f := FltB) (dlit 5 1) (dlit 1 5))) (nar (f := FltB) (dsub (f := FltB) (dlit 0 1) (dlit 1 5)))) (mkVec (nar (f := FltB) (dadd (f := FltB) (dlit 0 1) (dlit 1 5))) (nar (f := FltB) (dsub (f := FltB) (dlit 5 1) (dlit 1 5))) (nar (f := FltB) (dsub (f := FltB) (dlit 0 1) (dlit 1 5)))))
    [(10, 10, 9); (10, 11, 9); (10, 12, 9); (10, 13, 9); (10, 14, 9); (10, 15, 9); (11, 10, 9); (11, 11, 9); (11, 12, 9); (11, 13, 9); (11, 14, 9); (11, 15, 9); (12, 10, 9); (12, 11, 9); (12, 12, 9); (12, 13, 9); (12, 14, 9); (12, 15, 9); (13, 10, 9); (13, 11, 9); (13, 12, 9); (13, 13, 9); (13, 14, 9); (13, 15, 9); (14, 10, 9); (14, 11, 9); (14, 12, 9); (14, 13, 9); (14, 14, 9); (14, 15, 9); (15, 10, 9); (15, 11, 9); (15, 12, 9); (15, 13, 9); (15, 14, 9); (15, 15, 9)];
  same_cells (calc_rectangle_pos test_grid (slit 1 5) 100 (mkVec (nar (f := FltB) (dadd (f := FltB) (dlit 0 1) (dlit 1 5))) (nar (f := FltB) (dadd (f := FltB) (dlit 0 1) (dlit 1 5))) (nar (f := FltB) (dsub (f := FltB) (dlit 0 1) (dlit 1 5)))) (mkVec (nar (f := FltB) (dadd (f := FltB) (dlit 0 1) (dlit 1 5))) (nar (f := FltB) (dsub (f := FltB) (dlit 5 1) (dlit 1 5))) (nar (f := FltB) (dsub (f := FltB) (dlit 0 1) (dlit 1 5)))) (mkVec (nar (f := FltB) (dsub (f := FltB) (dlit 5 1) (dlit 1 5))) (nar (f := FltB) (dsub (f := FltB) (dlit 5 1) (dlit 1 5))) (nar (f := FltB) (dsub (f := FltB) (dlit 0 1) (dlit 1 5)))) (mkVec (nar (f := FltB) (dsub (f := FltB) (dlit 5 1) (dlit 1 5))) (nar (f := FltB) (dadd (f := FltB) (dlit 0 1) (dlit 1 5))) (nar (f := FltB) (dsub (f := FltB) (dlit 0 1) (dlit 1 5)))))
    [(10, 10, 9); (10, 11, 9); (10, 12, 9); (10, 13, 9); (10, 14, 9); (10, 15, 9); (11, 10, 9); (11, 11, 9); (11, 12, 9); (11, 13, 9); (11, 14, 9); (11, 15, 9); (12, 10, 9); (12, 11, 9); (12, 12, 9); (12, 13, 9); (12, 14, 9); (12, 15, 9); (13, 10, 9); (13, 11, 9); (13, 12, 9); (13, 13, 9); (13, 14, 9); (13, 15, 9); (14, 10, 9); (14, 11, 9); (14, 12, 9); (14, 13, 9); (14, 14, 9); (14, 15, 9); (15, 10, 9); (15, 11, 9); (15, 12, 9); (15, 13, 9); (15, 14, 9); (15, 15, 9)];
  same_cells (calc_rectangle_pos test_grid (slit 1 5) 100 (mkVec (nar (f := FltB) (dsub (f := FltB) (dlit 5 1) (dlit 1 5))) (nar (f := FltB) (dsub (f := FltB) (dlit 5 1) (dlit 1 5))) (nar (f := FltB) (dsub (f := FltB) (dlit 0 1) (dlit 1 5)))) (mkVec (nar (f := FltB) (dsub (f := FltB) (dlit 5 1) (dlit 1 5))) (nar (f := FltB) (dadd (f := FltB) (dlit 0 1) (dlit 1 5))) (nar (f := FltB) (dsub (f := FltB) (dlit 0 1) (dlit 1 5)))) (mkVec (nar (f := FltB) (dadd (f := FltB) (dlit 0 1) (dlit 1 5))) (nar (f := FltB) (dadd (f := FltB) (dlit 0 1) (dlit 1 5))) (nar (f := FltB) (dsub (f := FltB) (dlit 0 1) (dlit 1 5)))) (mkVec (nar (f := FltB) (dadd (f := FltB) (dlit 0 1) (dlit 1 5))) (nar (f := FltB) (dsub (f := FltB) (dlit 5 1) (dlit 1 5))) (nar (f := FltB) (dsub (f := FltB) (dlit 0 1) (dlit 1 5)))))
    [(10, 10, 9); (10, 11, 9); (10, 12, 9); (10, 13, 9); (10, 14, 9); (10, 15, 9); (11, 10, 9); (11, 11, 9); (11, 12, 9); (11, 13, 9); (11, 14, 9); (11, 15, 9); (12, 10, 9); (12, 11, 9); (12, 12, 9); (12, 13, 9); (12, 14, 9); (12, 15, 9); (13, 10, 9); (13, 11, 9); (13, 12, 9); (13, 13, 9); (13, 14, 9); (13, 15, 9); (14, 10, 9); (14, 11, 9); (14, 12, 9); (14, 13, 9); (14, 14, 9); (14, 15, 9); (15, 10, 9); (15, 11, 9); (15, 12, 9); (15, 13, 9); (15, 14, 9); (15, 15, 9)];
  same_cells (calc_rectangle_pos test_grid (slit 1 5) 100 (mkVec (nar (f := FltB) (dsub (f := FltB) (dlit 5 1) (dlit 1 5))) (nar (f := FltB) (dadd (f := FltB) (dlit 0 1) (dlit 1 5))) (nar (f := FltB) (dsub (f := FltB) (dlit 0 1) (dlit 1 5)))) (mkVec (nar (f := FltB) (dsub (f := FltB) (dlit 5 1) (dlit 1 5))) (nar (f := FltB) (dsub (f := FltB) (dlit 5 1) (dlit 1 5))) (nar (f := FltB) (dsub (f := FltB) (dlit 0 1) (dlit 1 5)))) (mkVec (nar (f := FltB) (dadd (f := FltB) (dlit 0 1) (dlit 1 5))) (nar (f := FltB) (dsub (f := FltB) (dlit 5 1) (dlit 1 5))) (nar (f := FltB) (dsub (f := FltB) (dlit 0 1) (dlit 1 5)))) (mkVec (nar (f := FltB) (dadd (f := FltB) (dlit 0 1) (dlit 1 5))) (nar (f := FltB) (dadd (f := FltB) (dlit 0 1) (dlit 1 5))) (nar (f := FltB) (dsub (f := FltB) (dlit 0 1) (dlit 1 5)))))
    [(10, 10, 9); (10, 11, 9); (10, 12, 9); (10, 13, 9); (10, 14, 9); (10, 15, 9); (11, 10, 9); (11, 11, 9); (11, 12, 9); (11, 13, 9); (11, 14, 9); (11, 15, 9); (12, 10, 9); (12, 11, 9); (12, 12, 9); (12, 13, 9); (12, 14, 9); (12, 15, 9); (13, 10, 9); (13, 11, 9); (13, 12, 9); (13, 13, 9); (13, 14, 9); (13, 15, 9); (14, 10, 9); (14, 11, 9); (14, 12, 9); (14, 13, 9); (14, 14, 9); (14, 15, 9); (15, 10, 9); (15, 11, 9); (15, 12, 9); (15, 13, 9); (15, 14, 9); (15, 15, 9)];
  same_cells (calc_rectangle_pos test_grid (slit 1 5) 100 (mkVec (nar (f := FltB) (dsub (f := FltB) (dlit 5 1) (dlit 1 5))) (nar (f := FltB) (dsub (f := FltB) (dlit 5 1) (dlit 1 5))) (nar (f := FltB) (dsub (f := FltB) (dlit 0 1) (dlit 1 5)))) (mkVec (nar (f := FltB) (dadd (f := FltB) (dlit 0 1) (dlit 1 5))) (nar (f := FltB) (dsub (f := FltB) (dlit 5 1) (dlit 1 5))) (nar (f := FltB) (dsub (f := FltB) (dlit 0 1) (dlit 1 5)))) (mkVec (nar (f := FltB) (dadd (f := FltB) (dlit 0 1) (dlit 1 5))) (nar (f := FltB) (dadd (f := FltB) (dlit 0 1) (dlit 1 5))) (nar (f := FltB) (dsub (f := FltB) (dlit 0 1) (dlit 1 5)))) (mkVec (nar (f := FltB) (dsub (f := FltB) (dlit 5 1) (dlit 1 5))) (nar (f := FltB) (dadd (f := FltB) (dlit 0 1) (dlit 1 5))) (nar (f := FltB) (dsub (f := FltB) (dlit 0 1) (dlit 1 5)))))
    [(10, 10, 9); (10, 11, 9); (10, 12, 9); (10, 13, 9); (10, 14, 9); (10, 15, 9); (11, 10, 9); (11, 11, 9); (11, 12, 9); (11, 13, 9); (11, 14, 9); (11, 15, 9); (12, 10, 9); (12, 11, 9); (12, 12, 9); (12, 13, 9); (12, 14, 9); (12, 15, 9); (13, 10, 9); (13, 11, 9); (13, 12, 9); (13, 13, 9); (13, 14, 9); (13, 15, 9); (14, 10, 9); (14, 11, 9); (14, 12, 9); (14, 13, 9); (14, 14, 9); (14, 15, 9); (15, 10, 9); (15, 11, 9); (15, 12, 9); (15, 13, 9); (15, 14, 9); (15, 15, 9)];
  same_cells (calc_rectangle_pos test_grid (slit 1 5) 100 (mkVec (nar (f := FltB) (dadd (f := FltB) (dlit 0 1) (dlit 1 5))) (nar (f := FltB) (dsub (f := FltB) (dlit 5 1) (dlit 1 5))) (nar (f := FltB) (dsub (f := FltB) (dlit 0 1) (dlit 1 5)))) (mkVec (nar (f := FltB) (dadd (f := FltB) (dlit 0 1) (dlit 1 5))) (nar (f := FltB) (dadd (f := FltB) (dlit 0 1) (dlit 1 5))) (nar (f := FltB) (dsub (f := FltB) (dlit 0 1) (dlit 1 5)))) (mkVec (nar (f := FltB) (dsub (f := FltB) (dlit 5 1) (dlit 1 5))) (nar (f := FltB) (dadd (f := FltB) (dlit 0 1) (dlit 1 5))) (nar (f := FltB) (dsub (f := FltB) (dlit 0 1) (dlit 1 5)))) (mkVec (nar (f := FltB) (dsub (f := FltB) (dlit 5 1) (dlit 1 5))) (nar (f := FltB) (dsub (f := FltB) (dlit 5 1) (dlit 1 5))) (nar (f := FltB) (dsub (f := FltB) (dlit 0 1) (dlit 1 5)))))
    [(10, 10, 9); (10, 11, 9); (10, 12, 9); (10, 13, 9); (10, 14, 9); (10, 15, 9); (11, 10, 9); (11, 11, 9); (11, 12, 9); (11, 13, 9); (11, 14, 9); (11, 15, 9); (12, 10, 9); (12, 11, 9); (12, 12, 9); (12, 13, 9); (12, 14, 9); (12, 15, 9); (13, 10, 9); (13, 11, 9); (13, 12, 9); (13, 13, 9); (13, 14, 9); (13, 15, 9); (14, 10, 9); (14, 11, 9); (14, 12, 9); (14, 13, 9); (14, 14, 9); (14, 15, 9); (15, 10, 9); (15, 11, 9); (15, 12, 9); (15, 13, 9); (15, 14, 9); (15, 15, 9)];
  same_cells (calc_rectangle_pos test_grid (slit 1 5) 100 (mkVec (nar (f := FltB) (dadd (f := FltB) (dlit 0 1) (dlit 1 5))) (nar (f := FltB) (dsub (f := FltB) (dlit 5 1) (dlit 1 5))) (nar (f := FltB) (dsub (f := FltB) (dlit 0 1) (dlit 1 5)))) (mkVec (nar (f := FltB) (dsub (f := FltB) (dlit 5 1) (dlit 1 5))) (nar (f := FltB) (dsub (f := FltB) (dlit 5 1) (dlit 1 5))) (nar (f := FltB) (dsub (f := FltB) (dlit 0 1) (dlit 1 5)))) (mkVec (nar (f := FltB) (dsub (f := FltB) (dlit 5 1) (dlit 1 5))) (nar (f := FltB) (dadd (f := FltB) (dlit 0 1) (dlit 1 5))) (nar (f := FltB) (dsub (f := FltB) (dlit 0 1) (dlit 1 5)))) (mkVec (nar (f := FltB) (dadd (f := FltB) (dlit 0 1) (dlit 1 5))) (nar (f := FltB) (dadd (f := FltB) (dlit 0 1) (dlit 1 5))) (nar (f := FltB) (dsub (f := FltB) (dlit 0 1) (dlit 1 5)))))
    [(10, 10, 9); (10, 11, 9); (10, 12, 9); (10, 13, 9); (10, 14, 9); (10, 15, 9); (11, 10, 9); (11, 11, 9); (11, 12, 9); (11, 13, 9); (11, 14, 9); (11, 15, 9); (12, 10, 9); (12, 11, 9); (12, 12, 9); (12, 13, 9); (12, 14, 9); (12, 15, 9); (13, 10, 9); (13, 11, 9); (13, 12, 9); (13, 13, 9); (13, 14, 9); (13, 15, 9); (14, 10, 9); (14, 11, 9); (14, 12, 9); (14, 13, 9); (14, 14, 9); (14, 15, 9); (15, 10, 9); (15, 11, 9); (15, 12, 9); (15, 13, 9); (15, 14, 9); (15, 15, 9)];
  same_cells (calc_rectangle_pos test_grid (slit 1 5) 100 (mkVec (nar (f := FltB) (dsub (f := FltB) (dlit 5 1) (dlit 1 5))) (nar (f := FltB) (dadd (f := FltB) (dlit 0 1) (dlit 1 5))) (nar (f := FltB) (dsub (f := FltB) (dlit 0 1) (dlit 1 5)))) (mkVec (nar (f := FltB) (dadd (f := FltB) (dlit 0 1) (dlit 1 5))) (nar (f := FltB) (dadd (f := FltB) (dlit 0 1) (dlit 1 5))) (nar (f := FltB) (dsub (f := FltB) (dlit 0 1) (dlit 1 5)))) (mkVec (nar (f := FltB) (dadd (f := FltB) (dlit 0 1) (dlit 1 5))) (nar (f := FltB) (dsub (f := FltB) (dlit 5 1) (dlit 1 5))) (nar (f := FltB) (dsub (f := FltB) (dlit 0 1) (dlit 1 5)))) (mkVec (nar (f := FltB) (dsub (f := FltB) (dlit 5 1) (dlit 1 5))) (nar (f := FltB) (dsub (f := FltB) (dlit 5 1) (dlit 1 5))) (nar (f := FltB) (dsub (f := FltB) (dlit 0 1) (dlit 1 5)))))
    [(10, 10, 9); (10, 11, 9); (10, 12, 9); (10, 13, 9); (10, 14, 9); (10, 15, 9); (11, 10, 9); (11, 11, 9); (11, 12, 9); (11, 13, 9); (11, 14, 9); (11, 15, 9); (12, 10, 9); (12, 11, 9); (12, 12, 9); (12, 13, 9); (12, 14, 9); (12, 15, 9); (13, 10, 9); (13, 11, 9); (13, 12, 9); (13, 13, 9); (13, 14, 9); (13, 15, 9); (14, 10, 9); (14, 11, 9); (14, 12, 9); (14, 13, 9); (14, 14, 9); (14, 15, 9); (15, 10, 9); (15, 11, 9); (15, 12, 9); (15, 13, 9); (15, 14, 9); (15, 15, 9)]].
Example BP_CR_1_pass : forallb id BP_CR_1 = true.
Proof. vm_cast_no_check (@eq_refl bool true). Qed.

Definition BP_CR_2 : list bool := [
  same_cells (calc_rectangle_pos test_grid (slit 1 5) 100 (mkVec (nar (f := FltB) (dadd (f := FltB) (dlit 0 1) (dlit 1 5))) (nar (f := FltB) (dsub (f := FltB) (dlit 0 1) (dlit 1 5))) (nar (f := FltB) (dadd (f := FltB) (dlit 0 1) (dlit 1 5)))) (mkVec (nar (f := FltB) (dsub (f := FltB) (dlit 5 1) (dlit 1 5))) (nar (f := FltB) (dsub (f := FltB) (dlit 0 1) (dlit 1 5))) (nar (f := FltB) (dadd (f := FltB) (dlit 0 1) (dlit 1 5)))) (mkVec (nar (f := FltB) (dsub (f := FltB) (dlit 5 1) (dlit 1 5))) (nar (f := FltB) (dsub (f := FltB) (dlit 0 1) (dlit 1 5))) (nar (f := FltB) (dsub (f := FltB) (dlit 5 1) (dlit 1 5)))) (mkVec (nar (f := FltB) (dadd (f := FltB) (dlit 0 1) (dlit 1 5))) (nar (f := FltB) (dsub (f := FltB) (dlit 0 1) (dlit 1 5))) (nar (f := FltB) (dsub (f := FltB) (dlit 5 1) (dlit 1 5)))))
    [(10, 10, 10); (10, 10, 11); (10, 10, 12); (10, 10, 13); (10, 10, 14); (11, 10, 10); (11, 10, 14); (12, 10, 10); (12, 10, 14); (13, 10, 10); (13, 10, 14); (14, 10, 10); (14, 10, 14); (15, 10, 10); (15, 10, 11); (15, 10, 12); (15, 10, 13); (15, 10, 14)];
  same_cells (calc_rectangle_pos test_grid (slit 1 5) 100 (mkVec (nar (f := FltB) (dadd (f := FltB) (dlit 0 1) (dlit 1 5))) (nar (f := FltB) (dsub (f := FltB) (dlit 0 1) (dlit 1 5))) (nar (f := FltB) (dadd (f := FltB) (dlit 0 1) (dlit 1 5)))) (mkVec (nar (f := FltB) (dadd (f := FltB) (dlit 0 1) (dlit 1 5))) (nar (f := FltB) (dsub (f := FltB) (dlit 0 1) (dlit 1 5))) (nar (f := FltB) (dsub (f := FltB) (dlit 5 1) (dlit 1 5)))) (mkVec (nar (f := FltB) (dsub (f := FltB) (dlit 5 1) (dlit 1 5))) (nar (f := FltB) (dsub (f := FltB) (dlit 0 1) (dlit 1 5))) (nar (f := FltB) (dsub (f := FltB) (dlit 5 1) (dlit 1 5)))) (mkVec (nar (f := FltB) (dsub (f := FltB) (dlit 5 1) (dlit 1 5))) (nar (f := FltB) (dsub (f := FltB) (dlit 0 1) (dlit 1 5))) (nar (f := FltB) (dadd (f := FltB) (dlit 0 1) (dlit 1 5)))))
    [(10, 10, 10); (10, 10, 11); (10, 10, 12); (10, 10, 13); (10, 10, 14); (11, 10, 10); (11, 10, 14); (12, 10, 10); (12, 10, 14); (13, 10, 10); (13, 10, 14); (14, 10, 10); (14, 10, 14); (15, 10, 10); (15, 10, 11); (15, 10, 12); (15, 10, 13); (15, 10, 14)];
  same_cells (calc_rectangle_pos test_grid (slit 1 5) 100 (mkVec (nar (f := FltB) (dsub (f := FltB) (dlit 5 1) (dlit 1 5))) (nar (f := FltB) (dsub (f := FltB) (dlit 0 1) (dlit 1 5))) (nar (f := FltB) (dsub (f := FltB) (dlit 5 1) (dlit 1 5)))) (mkVec (nar (f := FltB) (dsub (f := FltB) (dlit 5 1) (dlit 1 5))) (nar (f := FltB) (dsub (f := FltB) (dlit 0 1) (dlit 1 5))) (nar (f := FltB) (dadd (f := FltB) (dlit 0 1) (dlit 1 5)))) (mkVec (nar (f := FltB) (dadd (f := FltB) (dlit 0 1) (dlit 1 5))) (nar (f := FltB) (dsub (f := FltB) (dlit 0 1) (dlit 1 5))) (nar (f := FltB) (dadd (f := FltB) (dlit 0 1) (dlit 1 5)))) (mkVec (nar (f := FltB) (dadd (f := FltB) (dlit 0 1) (dlit 1 5))) (nar (f := FltB) (dsub (f := FltB) (dlit 0 1) (dlit 1 5))) (nar (f := FltB) (dsub (f := FltB) (dlit 5 1) (dlit 1 5)))))
    [(10, 10, 10); (10, 10, 11); (10, 10, 12); (10, 10, 13); (10, 10, 14); (11, 10, 10); (11, 10, 14); (12, 10, 10); (12, 10, 14); (13, 10, 10); (13, 10, 14); (14, 10, 10); (14, 10, 14); (15, 10, 10); (15, 10, 11); (15, 10, 12); (15, 10, 13); (15, 10, 14)];
  same_cells (calc_rectangle_pos test_grid (slit 1 5) 100 (mkVec (nar (f := FltB) (dsub (f := FltB) (dlit 5 1) (dlit 1 5))) (nar (f := FltB) (dsub (f := FltB) (dlit 0 1) (dlit 1 5))) (nar (f := FltB) (dadd (f := FltB) (dlit 0 1) (dlit 1 5)))) (mkVec (nar (f := FltB) (dsub (f := FltB) (dlit 5 1) (dlit 1 5))) (nar (f := FltB) (dsub (f := FltB) (dlit 0 1) (dlit 1 5))) (nar (f := FltB) (dsub (f := FltB) (dlit 5 1) (dlit 1 5)))) (mkVec (nar (f := FltB) (dadd (f := FltB) (dlit 0 1) (dlit 1 5))) (nar (f := FltB) (dsub (f := FltB) (dlit 0 1) (dlit 1 5))) (nar (f := FltB) (dsub (f := FltB) (dlit 5 1) (dlit 1 5)))) (mkVec (nar (f := FltB) (dadd (f := FltB) (dlit 0 1) (dlit 1 5))) (nar (f := FltB) (dsub (f := FltB) (dlit 0 1) (dlit 1 5))) (nar (f := FltB) (dadd (f := FltB) (dlit 0 1) (dlit 1 5)))))
    [(10, 10, 10); (10, 10, 11); (10, 10, 12); (10, 10, 13); (10, 10, 14); (11, 10, 10); (11, 10, 14); (12, 10, 10); (12, 10, 14); (13, 10, 10); (13, 10, 14); (14, 10, 10); (14, 10, 14); (15, 10, 10); (15, 10, 11); (15, 10, 12); (15, 10, 13); (15, 10, 14)];
  same_cells (calc_rectangle_pos test_grid (slit 1 5) 100 (mkVec (nar (f := FltB) (dsub (f := FltB) (dlit 5 1) (dlit 1 5))) (nar (f := FltB) (dsub (f := FltB) (dlit 0 1) (dlit 1 5))) (nar (f := FltB) (dsub (f := FltB) (dlit 5 1) (dlit 1 5)))) (mkVec (nar (f := FltB) (dadd (f := FltB) (dlit 0 1) (dlit 1 5))) (nar (f := FltB) (dsub (f := FltB) (dlit 0 1) (dlit 1 5))) (nar (f := FltB) (dsub (f := FltB) (dlit 5 1) (dlit 1 5)))) (mkVec (nar (f := FltB) (dadd (f := FltB) (dlit 0 1) (dlit 1 5))) (nar (f := FltB) (dsub (f := FltB) (dlit 0 1) (dlit 1 5))) (nar (f := FltB) (dadd (f := FltB) (dlit 0 1) (dlit 1 5)))) (mkVec (nar (f := FltB) (dsub (f := FltB) (dlit 5 1) (dlit 1 5))) (nar (f := FltB) (dsub (f := FltB) (dlit 0 1) (dlit 1 5))) (nar (f := FltB) (dadd (f := FltB) (dlit 0 1) (dlit 1 5)))))
    [(10, 10, 10); (10, 10, 11); (10, 10, 12); (10, 10, 13); (10, 10, 14); (11, 10, 10); (11, 10, 14); (12, 10, 10); (12, 10, 14); (13, 10, 10); (13, 10, 14); (14, 10, 10); (14, 10, 14); (15, 10, 10); (15, 10, 11); (15, 10, 12); (15, 10, 13); (15, 10, 14)];
  same_cells (calc_rectangle_pos test_grid (slit 1 5) 100 (mkVec (nar (f := FltB) (dadd (f := FltB) (dlit 0 1) (dlit 1 5))) (nar (f := FltB) (dsub (f := FltB) (dlit 0 1) (dlit 1 5))) (nar (f := FltB) (dsub (f := FltB) (dlit 5 1) (dlit 1 5)))) (mkVec (nar (f := FltB) (dadd (f := FltB) (dlit 0 1) (dlit 1 5))) (nar (f := FltB) (dsub (f := FltB) (dlit 0 1) (dlit 1 5))) (nar (f := FltB) (dadd (f := FltB) (dlit 0 1) (dlit 1 5)))) (mkVec (nar (f := FltB) (dsub (f := FltB) (dlit 5 1) (dlit 1 5))) (nar (f := FltB) (dsub (f := FltB) (dlit 0 1) (dlit 1 5))) (nar (f := FltB) (dadd (f := FltB) (dlit 0 1) (dlit 1 5)))) (mkVec (nar (f := FltB) (dsub (f := FltB) (dlit 5 1) (dlit 1 5))) (nar (f := FltB) (dsub (f := FltB) (dlit 0 1) (dlit 1 5))) (nar (f := FltB) (dsub (f := FltB) (dlit 5 1) (dlit 1 5)))))
    [(10, 10, 10); (10, 10, 11); (10, 10, 12); (10, 10, 13); (10, 10, 14); (11, 10, 10); (11, 10, 14); (12, 10, 10); (12, 10, 14); (13, 10, 10); (13, 10, 14); (14, 10, 10); (14, 10, 14); (15, 10, 10); (15, 10, 11); (15, 10, 12); (15, 10, 13); (15, 10, 14)];
  same_cells (calc_rectangle_pos test_grid (slit 1 5) 100 (mkVec (nar (f := FltB) (dadd (f := FltB) (dlit 0 1) (dlit 1 5))) (nar (f := FltB) (dsub (f := FltB) (dlit 0 1) (dlit 1 5))) (nar (f := FltB) (dsub (f := FltB) (dlit 5 1) (dlit 1 5)))) (mkVec (nar (f := FltB) (dsub (f := FltB) (dlit 5 1) (dlit 1 5))) (nar (f := FltB) (dsub (f := FltB) (dlit 0 1) (dlit 1 5))) (nar (f := FltB) (dsub (f := FltB) (dlit 5 1) (dlit 1 5)))) (mkVec (nar (f := FltB) (dsub (f := FltB) (dlit 5 1) (dlit 1 5))) (nar (f := FltB) (dsub (f := FltB) (dlit 0 1) (dlit 1 5))) (nar (f := FltB) (dadd (f := FltB) (dlit 0 1) (dlit 1 5)))) (mkVec (nar (f := FltB) (dadd (f := FltB) (dlit 0 1) (dlit 1 5))) (nar (f := FltB) (dsub (f := FltB) (dlit 0 1) (dlit 1 5))) (nar (f := FltB) (dadd (f := FltB) (dlit 0 1) (dlit 1 5)))))
    [(10, 10, 10); (10, 10, 11); (10, 10, 12); (10, 10, 13); (10, 10, 14); (11, 10, 10); (11, 10, 14); (12, 10, 10); (12, 10, 14); (13, 10, 10); (13, 10, 14); (14, 10, 10); (14, 10, 14); (15, 10, 10); (15, 10, 11); (15, 10, 12); (15, 10, 13); (15, 10, 14)];
  same_cells (calc_rectangle_pos test_grid (slit 1 5) 100 (mkVec (nar (f := FltB) (dsub (f := FltB) (dlit 5 1) (dlit 1 5))) (nar (f := FltB) (dsub (f := FltB) (dlit 0 1) (dlit 1 5))) (nar (f := FltB) (dadd (f := FltB) (dlit 0 1) (dlit 1 5)))) (mkVec (nar (f := FltB) (dadd (f := FltB) (dlit 0 1) (dlit 1 5))) (nar (f := FltB) (dsub (f := FltB) (dlit 0 1) (dlit 1 5))) (nar (f := FltB) (dadd (f := FltB) (dlit 0 1) (dlit 1 5)))) (mkVec (nar (f := FltB) (dadd (f := FltB) (dlit 0 1) (dlit 1 5))) (nar (f := FltB) (dsub (f := FltB) (dlit 0 1) (dlit 1 5))) (nar (f := FltB) (dsub (f := FltB) (dlit 5 1) (dlit 1 5)))) (mkVec (nar (f := FltB) (dsub (f := FltB) (dlit 5 1) (dlit 1 5))) (nar (f := FltB) (dsub (f := FltB) (dlit 0 1) (dlit 1 5))) (nar (f := FltB) (dsub (f := FltB) (dlit 5 1) (dlit 1 5)))))
    [(10, 10, 10); (10, 10, 11); (10, 10, 12); (10, 10, 13); (10, 10, 14); (11, 10, 10); (11, 10, 14); (12, 10, 10); (12, 10, 14); (13, 10, 10); (13, 10, 14); (14, 10, 10); (14, 10, 14); (15, 10, 10); (15, 10, 11); (15, 10, 12); (15, 10, 13); (15, 10, 14)]].
Example BP_CR_2_pass : forallb id BP_CR_2 = true.
Proof. vm_cast_no_check (@eq_refl bool true). Qed.

Definition BP_CR_3 : list bool := [
  same_cells (calc_rectangle_pos test_grid (slit 1 5) 100 (mkVec (nar (f := FltB) (dadd (f := FltB) (dlit 5 1) (dlit 1 5))) (nar (f := FltB) (dadd (f := FltB) (dlit 0 1) (dlit 1 5))) (nar (f := FltB) (dadd (f := FltB) (dlit 5 1) (dlit 1 5)))) (mkVec (nar (f := FltB) (dsub (f := FltB) (dlit 6 1) (dlit 1 5))) (nar (f := FltB) (dadd (f := FltB) (dlit 0 1) (dlit 1 5))) (nar (f := FltB) (dsub (f := FltB) (dlit 6 1) (dlit 1 5)))) (mkVec (nar (f := FltB) (dsub (f := FltB) (dlit 6 1) (dlit 1 5))) (nar (f := FltB) (dsub (f := FltB) (dlit 5 1) (dlit 1 5))) (nar (f := FltB) (dsub (f := FltB) (dlit 6 1) (dlit 1 5)))) (mkVec (nar (f := FltB) (dadd (f := FltB) (dlit 5 1) (dlit 1 5))) (nar (f := FltB) (dsub (f := FltB) (dlit 5 1) (dlit 1 5))) (nar (f := FltB) (dadd (f := FltB) (dlit 5 1) (dlit 1 5)))))
    [(15, 10, 15); (15, 11, 15); (15, 12, 15); (15, 13, 15); (15, 14, 15); (15, 15, 15); (16, 10, 15); (16, 11, 15); (16, 12, 15); (16, 13, 15); (16, 14, 15); (16, 15, 15)];
  same_cells (calc_rectangle_pos test_grid (slit 1 5) 100 (mkVec (nar (f := FltB) (dadd (f := FltB) (dlit 5 1) (dlit 1 5))) (nar (f := FltB) (dadd (f := FltB) (dlit 0 1) (dlit 1 5))) (nar (f := FltB) (dadd (f := FltB) (dlit 5 1) (dlit 1 5)))) (mkVec (nar (f := FltB) (dadd (f := FltB) (dlit 5 1) (dlit 1 5))) (nar (f := FltB) (dsub (f := FltB) (dlit 5 1) (dlit 1 5))) (nar (f := FltB) (dadd (f := FltB) (dlit 5 1) (dlit 1 5)))) (mkVec (nar (f := FltB) (dsub (f := FltB) (dlit 6 1) (dlit 1 5))) (nar (f := FltB) (dsub (f := FltB) (dlit 5 1) (dlit 1 5))) (nar (f := FltB) (dsub (f := FltB) (dlit 6 1) (dlit 1 5)))) (mkVec (nar (f := FltB) (dsub (f := FltB) (dlit 6 1) (dlit 1 5))) (nar (f := FltB) (dadd (f := FltB) (dlit 0 1) (dlit 1 5))) (nar (f := FltB) (dsub (f := FltB) (dlit 6 1) (dlit 1 5)))))
    [(15, 10, 15); (15, 11, 15); (15, 12, 15); (15, 13, 15); (15, 14, 15); (15, 15, 15); (16, 10, 15); (16, 11, 15); (16, 12, 15); (16, 13, 15); (16, 14, 15); (16, 15, 15)];
  same_cells (calc_rectangle_pos test_grid (slit 1 5) 100 (mkVec (nar (f := FltB) (dsub (f := FltB) (dlit 6 1) (dlit 1 5))) (nar (f := FltB) (dsub (f := FltB) (dlit 5 1) (dlit 1 5))) (nar (f := FltB) (dsub (f := FltB) (dlit 6 1) (dlit 1 5)))) (mkVec (nar (f := FltB) (dsub (f := FltB) (dlit 6 1) (dlit 1 5))) (nar (f := FltB) (dadd (f := FltB) (dlit 0 1) (dlit 1 5))) (nar (f := FltB) (dsub (f := FltB) (dlit 6 1) (dlit 1 5)))) (mkVec (nar (f := FltB) (dadd (f := FltB) (dlit 5 1) (dlit 1 5))) (nar (f := FltB) (dadd (f := FltB) (dlit 0 1) (dlit 1 5))) (nar (f := FltB) (dadd (f := FltB) (dlit 5 1) (dlit 1 5)))) (mkVec (nar (f := FltB) (dadd (f := FltB) (dlit 5 1) (dlit 1 5))) (nar (f := FltB) (dsub (f := FltB) (dlit 5 1) (dlit 1 5))) (nar (f := FltB) (dadd (f := FltB) (dlit 5 1) (dlit 1 5)))))
    [(15, 10, 15); (15, 11, 15); (15, 12, 15); (15, 13, 15); (15, 14, 15); (15, 15, 15); (16, 10, 15); (16, 11, 15); (16, 12, 15); (16, 13, 15); (16, 14, 15); (16, 15, 15)];
  same_cells (calc_rectangle_pos test_grid (slit 1 5) 100 (mkVec (nar (f := FltB) (dsub (f := FltB) (dlit 6 1) (dlit 1 5))) (nar (f := FltB) (dadd (f := FltB) (dlit 0 1) (dlit 1 5))) (nar (f := FltB) (dsub (f := FltB) (dlit 6 1) (dlit 1 5)))) (mkVec (nar (f := FltB) (dsub (f := FltB) (dlit 6 1) (dlit 1 5))) (nar (f := FltB) (dsub (f := FltB) (dlit 5 1) (dlit 1 5))) (nar (f := FltB) (dsub (f := FltB) (dlit 6 1) (dlit 1 5)))) (mkVec (nar (f := FltB) (dadd (f := FltB) (dlit 5 1) (dlit 1 5))) (nar (f := FltB) (dsub (f := FltB) (dlit 5 1) (dlit 1 5))) (nar (f := FltB) (dadd (f := FltB) (dlit 5 1) (dlit 1 5)))) (mkVec (nar (f := FltB) (dadd (f := FltB) (dlit 5 1) (dlit 1 5))) (nar (f := FltB) (dadd (f := FltB) (dlit 0 1) (dlit 1 5))) (nar (f := FltB) (dadd (f := FltB) (dlit 5 1) (dlit 1 5)))))
    [(15, 10, 15); (15, 11, 15); (15, 12, 15); (15, 13, 15); (15, 14, 15); (15, 15, 15); (16, 10, 15); (16, 11, 15); (16, 12, 15); (16, 13, 15); (16, 14, 15); (16, 15, 15)];
  same_cells (calc_rectangle_pos test_grid (slit 1 5) 100 (mkVec (nar (f := FltB) (dsub (f := FltB) (dlit 6 1) (dlit 1 5))) (nar (f := FltB) (dsub (f := FltB) (dlit 5 1) (dlit 1 5))) (nar (f := FltB) (dsub (f := FltB) (dlit 6 1) (dlit 1 5)))) (mkVec (nar (f := FltB) (dadd (f := FltB) (dlit 5 1) (dlit 1 5))) (nar (f := FltB) (dsub (f := FltB) (dlit 5 1) (dlit 1 5))) (nar (f := FltB) (dadd (f := FltB) (dlit 5 1) (dlit 1 5)))) (mkVec (nar (f := FltB) (dadd (f := FltB) (dlit 5 1) (dlit 1 5))) (nar (f := FltB) (dadd (f := FltB) (dlit 0 1) (dlit 1 5))) (nar (f := FltB) (dadd (f := FltB) (dlit 5 1) (dlit 1 5)))) (mkVec (nar (f := FltB) (dsub (f := FltB) (dlit 6 1) (dlit 1 5))) (nar (f := FltB) (dadd (f := FltB) (dlit 0 1) (dlit 1 5))) (nar (f := FltB) (dsub (f := FltB) (dlit 6 1) (dlit 1 5)))))
    [(15, 10, 15); (15, 11, 15); (15, 12, 15); (15, 13, 15); (15, 14, 15); (15, 15, 15); (16, 10, 15); (16, 11, 15); (16, 12, 15); (16, 13, 15); (16, 14, 15); (16, 15, 15)];
  same_cells (calc_rectangle_pos test_grid (slit 1 5) 100 (mkVec (nar (f := FltB) (dadd (f := FltB) (dlit 5 1) (dlit 1 5))) (nar (f := FltB) (dsub (f := FltB) (dlit 5 1) (dlit 1 5))) (nar (f := FltB) (dadd (f := FltB) (dlit 5 1) (dlit 1 5)))) (mkVec (nar (f := FltB) (dadd (f := FltB) (dlit 5 1) (dlit 1 5))) (nar (f := FltB) (dadd (f := FltB) (dlit 0 1) (dlit 1 5))) (nar (f := FltB) (dadd (f := FltB) (dlit 5 1) (dlit 1 5)))) (mkVec (nar (f := FltB) (dsub (f := FltB) (dlit 6 1) (dlit 1 5))) (nar (f := FltB) (dadd (f := FltB) (dlit 0 1) (dlit 1 5))) (nar (f := FltB) (dsub (f := FltB) (dlit 6 1) (dlit 1 5)))) (mkVec (nar (f := FltB) (dsub (f := FltB) (dlit 6 1) (dlit 1 5))) (nar (f := FltB) (dsub (f := FltB) (dlit 5 1) (dlit 1 5))) (nar (f := FltB) (dsub (f := FltB) (dlit 6 1) (dlit 1 5)))))
    [(15, 10, 15); (15, 11, 15); (15, 12, 15); (15, 13, 15); (15, 14, 15); (15, 15, 15); (16, 10, 15); (16, 11, 15); (16, 12, 15); (16, 13, 15); (16, 14, 15); (16, 15, 15)];
  same_cells (calc_rectangle_pos test_grid (slit 1 5) 100 (mkVec (nar (f := FltB) (dadd (f := FltB) (dlit 5 1) (dlit 1 5))) (nar (f := FltB) (dsub (f := FltB) (dlit 5 1) (dlit 1 5))) (nar (f := FltB) (dadd (f := FltB) (dlit 5 1) (dlit 1 5)))) (mkVec (nar (f := FltB) (dsub (f := FltB) (dlit 6 1) (dlit 1 5))) (nar (f := FltB) (dsub (f := FltB) (dlit 5 1) (dlit 1 5))) (nar (f := FltB) (dsub (f := FltB) (dlit 6 1) (dlit 1 5)))) (mkVec (nar (f := FltB) (dsub (f := FltB) (dlit 6 1) (dlit 1 5))) (nar (f := FltB) (dadd (f := FltB) (dlit 0 1) (dlit 1 5))) (nar (f := FltB) (dsub (f := FltB) (dlit 6 1) (dlit 1 5)))) (mkVec (nar (f := FltB) (dadd (f := FltB) (dlit 5 1) (dlit 1 5))) (nar (f := FltB) (dadd (f := FltB) (dlit 0 1) (dlit 1 5))) (nar (f := FltB) (dadd (f := FltB) (dlit 5 1) (dlit 1 5)))))
    [(15, 10, 15); (15, 11, 15); (15, 12, 15); (15, 13, 15); (15, 14, 15); (15, 15, 15); (16, 10, 15); (16, 11, 15); (16, 12, 15); (16, 13, 15); (16, 14, 15); (16, 15, 15)];
  same_cells (calc_rectangle_pos test_grid (slit 1 5) 100 (mkVec (nar (f := FltB) (dsub (f := FltB) (dlit 6 1) (dlit 1 5))) (nar (f := FltB) (dadd (f := FltB) (dlit 0 1) (dlit 1 5))) (nar (f := FltB) (dsub (f := FltB) (dlit 6 1) (dlit 1 5)))) (mkVec (nar (f := FltB) (dadd (f := FltB) (dlit 5 1) (dlit 1 5))) (nar (f := FltB) (dadd (f := FltB) (dlit 0 1) (dlit 1 5))) (nar (f := FltB) (dadd (f := FltB) (dlit 5 1) (dlit 1 5)))) (mkVec (nar (f := FltB) (dadd (f := FltB) (dlit 5 1) (dlit 1 5))) (nar (f := FltB) (dsub (f := FltB) (dlit 5 1) (dlit 1 5))) (nar (f := FltB) (dadd (f := FltB) (dlit 5 1) (dlit 1 5)))) (mkVec (nar (f := FltB) (dsub (f := FltB) (dlit 6 1) (dlit 1 5))) (nar (f := FltB) (dsub (f := FltB) (dlit 5 1) (dlit 1 5))) (nar (f := FltB) (dsub (f := FltB) (dlit 6 1) (dlit 1 5)))))
    [(15, 10, 15); (15, 11, 15); (15, 12, 15); (15, 13, 15); (15, 14, 15); (15, 15, 15); (16, 10, 15); (16, 11, 15); (16, 12, 15); (16, 13, 15); (16, 14, 15); (16, 15, 15)]].
Example BP_CR_3_pass : forallb id BP_CR_3 = true.
Proof. vm_cast_no_check (@eq_refl bool true). Qed.

Definition BP_CR_4 : list bool := [
  same_cells (calc_rectangle_pos test_grid (slit 1 5) 100 (mkVec (nar (f := FltB) (dadd (f := FltB) (dlit 34 2) (dlit 1 5))) (nar (f := FltB) (dadd (f := FltB) (dlit 57 2) (dlit 1 5))) (nar (f := FltB) (dsub (f := FltB) (dlit 0 1) (dlit 1 5)))) (mkVec (nar (f := FltB) (dsub (f := FltB) (dlit 74 2) (dlit 1 5))) (nar (f := FltB) (dsub (f := FltB) (dlit 97 2) (dlit 1 5))) (nar (f := FltB) (dsub (f := FltB) (dlit 0 1) (dlit 1 5)))) (mkVec (nar (f := FltB) (dadd (f := FltB) (dlit 44 2) (dlit 1 5))) (nar (f := FltB) (dadd (f := FltB) (dlit 67 2) (dlit 1 5))) (nar (f := FltB) (dsub (f := FltB) (dlit 0 1) (dlit 1 5)))) (mkVec (nar (f := FltB) (dsub (f := FltB) (dlit 64 2) (dlit 1 5))) (nar (f := FltB) (dsub (f := FltB) (dlit 87 2) (dlit 1 5))) (nar (f := FltB) (dsub (f := FltB) (dlit 0 1) (dlit 1 5)))))
    [(13, 16, 9); (14, 16, 9); (14, 17, 9); (15, 17, 9); (15, 18, 9); (16, 18, 9); (16, 19, 9); (17, 19, 9); (17, 20, 9)];
  same_cells (calc_rectangle_pos test_grid (slit 1 5) 100 (mkVec (nar (f := FltB) (dadd (f := FltB) (dlit 34 2) (dlit 1 5))) (nar (f := FltB) (dadd (f := FltB) (dlit 57 2) (dlit 1 5))) (nar (f := FltB) (dsub (f := FltB) (dlit 0 1) (dlit 1 5)))) (mkVec (nar (f := FltB) (dsub (f := FltB) (dlit 64 2) (dlit 1 5))) (nar (f := FltB) (dsub (f := FltB) (dlit 87 2) (dlit 1 5))) (nar (f := FltB) (dsub (f := FltB) (dlit 0 1) (dlit 1 5)))) (mkVec (nar (f := FltB) (dadd (f := FltB) (dlit 44 2) (dlit 1 5))) (nar (f := FltB) (dadd (f := FltB) (dlit 67 2) (dlit 1 5))) (nar (f := FltB) (dsub (f := FltB) (dlit 0 1) (dlit 1 5)))) (mkVec (nar (f := FltB) (dsub (f := FltB) (dlit 74 2) (dlit 1 5))) (nar (f := FltB) (dsub (f := FltB) (dlit 97 2) (dlit 1 5))) (nar (f := FltB) (dsub (f := FltB) (dlit 0 1) (dlit 1 5)))))
    [(13, 16, 9); (14, 16, 9); (14, 17, 9); (15, 17, 9); (15, 18, 9); (16, 18, 9); (16, 19, 9); (17, 19, 9); (17, 20, 9)];
  same_cells (calc_rectangle_pos test_grid (slit 1 5) 100 (mkVec (nar (f := FltB) (dadd (f := FltB) (dlit 44 2) (dlit 1 5))) (nar (f := FltB) (dadd (f := FltB) (dlit 67 2) (dlit 1 5))) (nar (f := FltB) (dsub (f := FltB) (dlit 0 1) (dlit 1 5)))) (mkVec (nar (f := FltB) (dsub (f := FltB) (dlit 74 2) (dlit 1 5))) (nar (f := FltB) (dsub (f := FltB) (dlit 97 2) (dlit 1 5))) (nar (f := FltB) (dsub (f := FltB) (dlit 0 1) (dlit 1 5)))) (mkVec (nar (f := FltB) (dadd (f := FltB) (dlit 34 2) (dlit 1 5))) (nar (f := FltB) (dadd (f := FltB) (dlit 57 2) (dlit 1 5))) (nar (f := FltB) (dsub (f := FltB) (dlit 0 1) (dlit 1 5)))) (mkVec (nar (f := FltB) (dsub (f := FltB) (dlit 64 2) (dlit 1 5))) (nar (f := FltB) (dsub (f := FltB) (dlit 87 2) (dlit 1 5))) (nar (f := FltB) (dsub (f := FltB) (dlit 0 1) (dlit 1 5)))))
    [(13, 16, 9); (14, 16, 9); (14, 17, 9); (15, 17, 9); (15, 18, 9); (16, 18, 9); (16, 19, 9); (17, 19, 9); (17, 20, 9)];
  same_cells (calc_rectangle_pos test_grid (slit 1 5) 100 (mkVec (nar (f := FltB) (dsub (f := FltB) (dlit 74 2) (dlit 1 5))) (nar (f := FltB) (dsub (f := FltB) (dlit 97 2) (dlit 1 5))) (nar (f := FltB) (dsub (f := FltB) (dlit 0 1) (dlit 1 5)))) (mkVec (nar (f := FltB) (dadd (f := FltB) (dlit 44 2) (dlit 1 5))) (nar (f := FltB) (dadd (f := FltB) (dlit 67 2) (dlit 1 5))) (nar (f := FltB) (dsub (f := FltB) (dlit 0 1) (dlit 1 5)))) (mkVec (nar (f := FltB) (dsub (f := FltB) (dlit 64 2) (dlit 1 5))) (nar (f := FltB) (dsub (f := FltB) (dlit 87 2) (dlit 1 5))) (nar (f := FltB) (dsub (f := FltB) (dlit 0 1) (dlit 1 5)))) (mkVec (nar (f := FltB) (dadd (f := FltB) (dlit 34 2) (dlit 1 5))) (nar (f := FltB) (dadd (f := FltB) (dlit 57 2) (dlit 1 5))) (nar (f := FltB) (dsub (f := FltB) (dlit 0 1) (dlit 1 5)))))
    [(13, 16, 9); (14, 16, 9); (14, 17, 9); (15, 17, 9); (15, 18, 9); (16, 18, 9); (16, 19, 9); (17, 19, 9); (17, 20, 9)];
  same_cells (calc_rectangle_pos test_grid (slit 1 5) 100 (mkVec (nar (f := FltB) (dadd (f := FltB) (dlit 44 2) (dlit 1 5))) (nar (f := FltB) (dadd (f := FltB) (dlit 67 2) (dlit 1 5))) (nar (f := FltB) (dsub (f := FltB) (dlit 0 1) (dlit 1 5)))) (mkVec (nar (f := FltB) (dsub (f := FltB) (dlit 64 2) (dlit 1 5))) (nar (f := FltB) (dsub (f := FltB) (dlit 87 2) (dlit 1 5))) (nar (f := FltB) (dsub (f := FltB) (dlit 0 1) (dlit 1 5)))) (mkVec (nar (f := FltB) (dadd (f := FltB) (dlit 34 2) (dlit 1 5))) (nar (f := FltB) (dadd (f := FltB) (dlit 57 2) (dlit 1 5))) (nar (f := FltB) (dsub (f := FltB) (dlit 0 1) (dlit 1 5)))) (mkVec (nar (f := FltB) (dsub (f := FltB) (dlit 74 2) (dlit 1 5))) (nar (f := FltB) (dsub (f := FltB) (dlit 97 2) (dlit 1 5))) (nar (f := FltB) (dsub (f := FltB) (dlit 0 1) (dlit 1 5)))))
    [(13, 16, 9); (14, 16, 9); (14, 17, 9); (15, 17, 9); (15, 18, 9); (16, 18, 9); (16, 19, 9); (17, 19, 9); (17, 20, 9)];
  same_cells (calc_rectangle_pos test_grid (slit 1 5) 100 (mkVec (nar (f := FltB) (dsub (f := FltB) (dlit 64 2) (dlit 1 5))) (nar (f := FltB) (dsub (f := FltB) (dlit 87 2) (dlit 1 5))) (nar (f := FltB) (dsub (f := FltB) (dlit 0 1) (dlit 1 5)))) (mkVec (nar (f := FltB) (dadd (f := FltB) (dlit 34 2) (dlit 1 5))) (nar (f := FltB) (dadd (f := FltB) (dlit 57 2) (dlit 1 5))) (nar (f := FltB) (dsub (f := FltB) (dlit 0 1) (dlit 1 5)))) (mkVec (nar (f := FltB) (dsub (f := FltB) (dlit 74 2) (dlit 1 5))) (nar (f := FltB) (dsub (f := FltB) (dlit 97 2) (dlit 1 5))) (nar (f := FltB) (dsub (f := FltB) (dlit 0 1) (dlit 1 5)))) (mkVec (nar (f := FltB) (dadd (f := FltB) (dlit 44 2) (dlit 1 5))) (nar (f := FltB) (dadd (f := FltB) (dlit 67 2) (dlit 1 5))) (nar (f := FltB) (dsub (f := FltB) (dlit 0 1) (dlit 1 5)))))
    [(13, 16, 9); (14, 16, 9); (14, 17, 9); (15, 17, 9); (15, 18, 9); (16, 18, 9); (16, 19, 9); (17, 19, 9); (17, 20, 9)];
  same_cells (calc_rectangle_pos test_grid (slit 1 5) 100 (mkVec (nar (f := FltB) (dsub (f := FltB) (dlit 64 2) (dlit 1 5))) (nar (f := FltB) (dsub (f := FltB) (dlit 87 2) (dlit 1 5))) (nar (f := FltB) (dsub (f := FltB) (dlit 0 1) (dlit 1 5)))) (mkVec (nar (f := FltB) (dadd (f := FltB) (dlit 44 2) (dlit 1 5))) (nar (f := FltB) (dadd (f := FltB) (dlit 67 2) (dlit 1 5))) (nar (f := FltB) (dsub (f := FltB) (dlit 0 1) (dlit 1 5)))) (mkVec (nar (f := FltB) (dsub (f := FltB) (dlit 74 2) (dlit 1 5))) (nar (f := FltB) (dsub (f := FltB) (dlit 97 2) (dlit 1 5))) (nar (f := FltB) (dsub (f := FltB) (dlit 0 1) (dlit 1 5)))) (mkVec (nar (f := FltB) (dadd (f := FltB) (dlit 34 2) (dlit 1 5))) (nar (f := FltB) (dadd (f := FltB) (dlit 57 2) (dlit 1 5))) (nar (f := FltB) (dsub (f := FltB) (dlit 0 1) (dlit 1 5)))))
    [(13, 16, 9); (14, 16, 9); (14, 17, 9); (15, 17, 9); (15, 18, 9); (16, 18, 9); (16, 19, 9); (17, 19, 9); (17, 20, 9)];
  same_cells (calc_rectangle_pos test_grid (slit 1 5) 100 (mkVec (nar (f := FltB) (dsub (f := FltB) (dlit 74 2) (dlit 1 5))) (nar (f := FltB) (dsub (f := FltB) (dlit 97 2) (dlit 1 5))) (nar (f := FltB) (dsub (f := FltB) (dlit 0 1) (dlit 1 5)))) (mkVec (nar (f := FltB) (dadd (f := FltB) (dlit 34 2) (dlit 1 5))) (nar (f := FltB) (dadd (f := FltB) (dlit 57 2) (dlit 1 5))) (nar (f := FltB) (dsub (f := FltB) (dlit 0 1) (dlit 1 5)))) (mkVec (nar (f := FltB) (dsub (f := FltB) (dlit 64 2) (dlit 1 5))) (nar (f := FltB) (dsub (f := FltB) (dlit 87 2) (dlit 1 5))) (nar (f := FltB) (dsub (f := FltB) (dlit 0 1) (dlit 1 5)))) (mkVec (nar (f := FltB) (dadd (f := FltB) (dlit 44 2) (dlit 1 5))) (nar (f := FltB) (dadd (f := FltB) (dlit 67 2) (dlit 1 5))) (nar (f := FltB) (dsub (f := FltB) (dlit 0 1) (dlit 1 5)))))
    [(13, 16, 9); (14, 16, 9); (14, 17, 9); (15, 17, 9); (15, 18, 9); (16, 18, 9); (16, 19, 9); (17, 19, 9); (17, 20, 9)]].
Example BP_CR_4_pass : forallb id BP_CR_4 = true.
Proof. vm_cast_no_check (@eq_refl bool true). Qed.

Definition BP_CR_5 : list bool := [
  same_cells (calc_rectangle_pos test_grid (slit 1 5) 100 (mkVec (nar (f := FltB) (dsub (f := FltB) (dlit 5 1) (dlit 1 5))) (nar (f := FltB) (dsub (f := FltB) (dlit 5 1) (dlit 1 5))) (nar (f := FltB) (dsub (f := FltB) (dlit 5 1) (dlit 1 5)))) (mkVec (nar (f := FltB) (dsub (f := FltB) (dlit 5 1) (dlit 1 5))) (nar (f := FltB) (dsub (f := FltB) (dlit 5 1) (dlit 1 5))) (nar (f := FltB) (dsub (f := FltB) (dlit 5 1) (dlit 1 5)))) (mkVec (nar (f := FltB) (dsub (f := FltB) (dlit 5 1) (dlit 1 5))) (nar (f := FltB) (dsub (f := FltB) (dlit 5 1) (dlit 1 5))) (nar (f := FltB) (dsub (f := FltB) (dlit 5 1) (dlit 1 5)))) (mkVec (nar (f := FltB) (dsub (f := FltB) (dlit 5 1) (dlit 1 5))) (nar (f := FltB) (dsub (f := FltB) (dlit 5 1) (dlit 1 5))) (nar (f := FltB) (dsub (f := FltB) (dlit 5 1) (dlit 1 5)))))
    [(15, 15, 14)];
  same_cells (calc_rectangle_pos test_grid (slit 1 5) 100 (mkVec (nar (f := FltB) (dsub (f := FltB) (dlit 5 1) (dlit 1 5))) (nar (f := FltB) (dsub (f := FltB) (dlit 5 1) (dlit 1 5))) (nar (f := FltB) (dsub (f := FltB) (dlit 5 1) (dlit 1 5)))) (mkVec (nar (f := FltB) (dsub (f := FltB) (dlit 5 1) (dlit 1 5))) (nar (f := FltB) (dsub (f := FltB) (dlit 5 1) (dlit 1 5))) (nar (f := FltB) (dsub (f := FltB) (dlit 5 1) (dlit 1 5)))) (mkVec (nar (f := FltB) (dsub (f := FltB) (dlit 5 1) (dlit 1 5))) (nar (f := FltB) (dsub (f := FltB) (dlit 5 1) (dlit 1 5))) (nar (f := FltB) (dsub (f := FltB) (dlit 5 1) (dlit 1 5)))) (mkVec (nar (f := FltB) (dsub (f := FltB) (dlit 5 1) (dlit 1 5))) (nar (f := FltB) (dsub (f := FltB) (dlit 5 1) (dlit 1 5))) (nar (f := FltB) (dsub (f := FltB) (dlit 5 1) (dlit 1 5)))))
    [(15, 15, 14)];
  same_cells (calc_rectangle_pos test_grid (slit 1 5) 100 (mkVec (nar (f := FltB) (dsub (f := FltB) (dlit 5 1) (dlit 1 5))) (nar (f := FltB) (dsub (f := FltB) (dlit 5 1) (dlit 1 5))) (nar (f := FltB) (dsub (f := FltB) (dlit 5 1) (dlit 1 5)))) (mkVec (nar (f := FltB) (dsub (f := FltB) (dlit 5 1) (dlit 1 5))) (nar (f := FltB) (dsub (f := FltB) (dlit 5 1) (dlit 1 5))) (nar (f := FltB) (dsub (f := FltB) (dlit 5 1) (dlit 1 5)))) (mkVec (nar (f := FltB) (dsub (f := FltB) (dlit 5 1) (dlit 1 5))) (nar (f := FltB) (dsub (f := FltB) (dlit 5 1) (dlit 1 5))) (nar (f := FltB) (dsub (f := FltB) (dlit 5 1) (dlit 1 5)))) (mkVec (nar (f := FltB) (dsub (f := FltB) (dlit 5 1) (dlit 1 5))) (nar (f := FltB) (dsub (f := FltB) (dlit 5 1) (dlit 1 5))) (nar (f := FltB) (dsub (f := FltB) (dlit 5 1) (dlit 1 5)))))
    [(15, 15, 14)];
  same_cells (calc_rectangle_pos test_grid (slit 1 5) 100 (mkVec (nar (f := FltB) (dsub (f := FltB) (dlit 5 1) (dlit 1 5))) (nar (f := FltB) (dsub (f := FltB) (dlit 5 1) (dlit 1 5))) (nar (f := FltB) (dsub (f := FltB) (dlit 5 1) (dlit 1 5)))) (mkVec (nar (f := FltB) (dsub (f := FltB) (dlit 5 1) (dlit 1 5))) (nar (f := FltB) (dsub (f := FltB) (dlit 5 1) (dlit 1 5))) (nar (f := FltB) (dsub (f := FltB) (dlit 5 1) (dlit 1 5)))) (mkVec (nar (f := FltB) (dsub (f := FltB) (dlit 5 1) (dlit 1 5))) (nar (f := FltB) (dsub (f := FltB) (dlit 5 1) (dlit 1 5))) (nar (f := FltB) (dsub (f := FltB) (dlit 5 1) (dlit 1 5)))) (mkVec (nar (f := FltB) (dsub (f := FltB) (dlit 5 1) (dlit 1 5))) (nar (f := FltB) (dsub (f := FltB) (dlit 5 1) (dlit 1 5))) (nar (f := FltB) (dsub (f := FltB) (dlit 5 1) (dlit 1 5)))))
    [(15, 15, 14)];
  same_cells (calc_rectangle_pos test_grid (slit 1 5) 100 (mkVec (nar (f := FltB) (dsub (f := FltB) (dlit 5 1) (dlit 1 5))) (nar (f := FltB) (dsub (f := FltB) (dlit 5 1) (dlit 1 5))) (nar (f := FltB) (dsub (f := FltB) (dlit 5 1) (dlit 1 5)))) (mkVec (nar (f := FltB) (dsub (f := FltB) (dlit 5 1) (dlit 1 5))) (nar (f := FltB) (dsub (f := FltB) (dlit 5 1) (dlit 1 5))) (nar (f := FltB) (dsub (f := FltB) (dlit 5 1) (dlit 1 5)))) (mkVec (nar (f := FltB) (dsub (f := FltB) (dlit 5 1) (dlit 1 5))) (nar (f := FltB) (dsub (f := FltB) (dlit 5 1) (dlit 1 5))) (nar (f := FltB) (dsub (f := FltB) (dlit 5 1) (dlit 1 5)))) (mkVec (nar (f := FltB) (dsub (f := FltB) (dlit 5 1) (dlit 1 5))) (nar (f := FltB) (dsub (f := FltB) (dlit 5 1) (dlit 1 5))) (nar (f := FltB) (dsub (f := FltB) (dlit 5 1) (dlit 1 5)))))
    [(15, 15, 14)];
  same_cells (calc_rectangle_pos test_grid (slit 1 5) 100 (mkVec (nar (f := FltB) (dsub (f := FltB) (dlit 5 1) (dlit 1 5))) (nar (f := FltB) (dsub (f := FltB) (dlit 5 1) (dlit 1 5))) (nar (f := FltB) (dsub (f := FltB) (dlit 5 1) (dlit 1 5)))) (mkVec (nar (f := FltB) (dsub (f := FltB) (dlit 5 1) (dlit 1 5))) (nar (f := FltB) (dsub (f := FltB) (dlit 5 1) (dlit 1 5))) (nar (f := FltB) (dsub (f := FltB) (dlit 5 1) (dlit 1 5)))) (mkVec (nar (f := FltB) (dsub (f := FltB) (dlit 5 1) (dlit 1 5))) (nar (f := FltB) (dsub (f := FltB) (dlit 5 1) (dlit 1 5))) (nar (f := FltB) (dsub (f := FltB) (dlit 5 1) (dlit 1 5)))) (mkVec (nar (f := FltB) (dsub (f := FltB) (dlit 5 1) (dlit 1 5))) (nar (f := FltB) (dsub (f := FltB) (dlit 5 1) (dlit 1 5))) (nar (f := FltB) (dsub (f := FltB) (dlit 5 1) (dlit 1 5)))))
    [(15, 15, 14)];
  same_cells (calc_rectangle_pos test_grid (slit 1 5) 100 (mkVec (nar (f := FltB) (dsub (f := FltB) (dlit 5 1) (dlit 1 5))) (nar (f := FltB) (dsub (f := FltB) (dlit 5 1) (dlit 1 5))) (nar (f := FltB) (dsub (f := FltB) (dlit 5 1) (dlit 1 5)))) (mkVec (nar (f := FltB) (dsub (f := FltB) (dlit 5 1) (dlit 1 5))) (nar (f := FltB) (dsub (f := FltB) (dlit 5 1) (dlit 1 5))) (nar (f := FltB) (dsub (f := FltB) (dlit 5 1) (dlit 1 5)))) (mkVec (nar (f := FltB) (dsub (f := FltB) (dlit 5 1) (dlit 1 5))) (nar (f := FltB) (dsub (f := FltB) (dlit 5 1) (dlit 1 5))) (nar (f := FltB) (dsub (f := FltB) (dlit 5 1) (dlit 1 5)))) (mkVec (nar (f := FltB) (dsub (f := FltB) (dlit 5 1) (dlit 1 5))) (nar (f := FltB) (dsub (f := FltB) (dlit 5 1) (dlit 1 5))) (nar (f := FltB) (dsub (f := FltB) (dlit 5 1) (dlit 1 5)))))
    [(15, 15, 14)];
  same_cells (calc_rectangle_pos test_grid (slit 1 5) 100 (mkVec (nar (f := FltB) (dsub (f := FltB) (dlit 5 1) (dlit 1 5))) (nar (f := FltB) (dsub (f := FltB) (dlit 5 1) (dlit 1 5))) (nar (f := FltB) (dsub (f := FltB) (dlit 5 1) (dlit 1 5)))) (mkVec (nar (f := FltB) (dsub (f := FltB) (dlit 5 1) (dlit 1 5))) (nar (f := FltB) (dsub (f := FltB) (dlit 5 1) (dlit 1 5))) (nar (f := FltB) (dsub (f := FltB) (dlit 5 1) (dlit 1 5)))) (mkVec (nar (f := FltB) (dsub (f := FltB) (dlit 5 1) (dlit 1 5))) (nar (f := FltB) (dsub (f := FltB) (dlit 5 1) (dlit 1 5))) (nar (f := FltB) (dsub (f := FltB) (dlit 5 1) (dlit 1 5)))) (mkVec (nar (f := FltB) (dsub (f := FltB) (dlit 5 1) (dlit 1 5))) (nar (f := FltB) (dsub (f := FltB) (dlit 5 1) (dlit 1 5))) (nar (f := FltB) (dsub (f := FltB) (dlit 5 1) (dlit 1 5)))))
    [(15, 15, 14)]].
Example BP_CR_5_pass : forallb id BP_CR_5 = true.
Proof. vm_cast_no_check (@eq_refl bool true). Qed.

Definition BP_CT_1 : list bool := [
  same_cells (calc_triangle_pos test_grid (slit 1 5) 100 (mkVec (nar (f := FltB) (dadd (f := FltB) (dlit 0 1) (dlit 1 5))) (nar (f := FltB) (dadd (f := FltB) (dlit 0 1) (dlit 1 5))) (nar (f := FltB) (dsub (f := FltB) (dlit 0 1) (dlit 1 5)))) (mkVec (nar (f := FltB) (dsub (f := FltB) (dlit 10 1) (dlit 1 5))) (nar (f := FltB) (dadd (f := FltB) (dlit 0 1) (dlit 1 5))) (nar (f := FltB) (dsub (f := FltB) (dlit 0 1) (dlit 1 5)))) (mkVec (nar (f := FltB) (dadd (f := FltB) (dlit 0 1) (dlit 1 5))) (nar (f := FltB) (dsub (f := FltB) (dlit 10 1) (dlit 1 5))) (nar (f := FltB) (dsub (f := FltB) (dlit 0 1) (dlit 1 5)))))
    [(10, 10, 9); (10, 11, 9); (10, 12, 9); (10, 13, 9); (10, 14, 9); (10, 15, 9); (10, 16, 9); (10, 17, 9); (10, 18, 9); (10, 19, 9); (10, 20, 9); (11, 10, 9); (11, 11, 9); (11, 12, 9); (11, 13, 9); (11, 14, 9); (11, 15, 9); (11, 16, 9); (11, 17, 9); (11, 18, 9); (11, 19, 9); (11, 20, 9); (12, 10, 9); (12, 11, 9); (12, 12, 9); (12, 13, 9); (12, 14, 9); (12, 15, 9); (12, 16, 9); (12, 17, 9); (12, 18, 9); (12, 19, 9); (13, 10, 9); (13, 11, 9); (13, 12, 9); (13, 13, 9); (13, 14, 9); (13, 15, 9); (13, 16, 9); (13, 17, 9); (13, 18, 9); (14, 10, 9); (14, 11, 9); (14, 12, 9); (14, 13, 9); (14, 14, 9); (14, 15, 9); (14, 16, 9); (14, 17, 9); (15, 10, 9); (15, 11, 9); (15, 12, 9); (15, 13, 9); (15, 14, 9); (15, 15, 9); (15, 16, 9); (16, 10, 9); (16, 11, 9); (16, 12, 9); (16, 13, 9); (16, 14, 9); (16, 15, 9); (17, 10, 9); (17, 11, 9); (17, 12, 9); (17, 13, 9); (17, 14, 9); (18, 10, 9); (18, 11, 9); (18, 12, 9); (18, 13, 9); (19, 10, 9); (19, 11, 9); (19, 12, 9); (20, 10, 9); (20, 11, 9)];
  same_cells (calc_triangle_pos test_grid (slit 1 5) 100 (mkVec (nar (f := FltB) (dadd (f := FltB) (dlit 0 1) (dlit 1 5))) (nar (f := FltB) (dadd (f := FltB) (dlit 0 1) (dlit 1 5))) (nar (f := FltB) (dsub (f := FltB) (dlit 0 1) (dlit 1 5)))) (mkVec (nar (f := FltB) (dadd (f := FltB) (dlit 0 1) (dlit 1 5))) (nar (f := FltB) (dsub (f := FltB) (dlit 10 1) (dlit 1 5))) (nar (f := FltB) (dsub (f := FltB) (dlit 0 1) (dlit 1 5)))) (mkVec (nar (f := FltB) (dsub (f := FltB) (dlit 10 1) (dlit 1 5))) (nar (f := FltB) (dadd (f := FltB) (dlit 0 1) (dlit 1 5))) (nar (f := FltB) (dsub (f := FltB) (dlit 0 1) (dlit 1 5)))))
    [(10, 10, 9); (10, 11, 9); (10, 12, 9); (10, 13, 9); (10, 14, 9); (10, 15, 9); (10, 16, 9); (10, 17, 9); (10, 18, 9); (10, 19, 9); (10, 20, 9); (11, 10, 9); (11, 11, 9); (11, 12, 9); (11, 13, 9); (11, 14, 9); (11, 15, 9); (11, 16, 9); (11, 17, 9); (11, 18, 9); (11, 19, 9); (11, 20, 9); (12, 10, 9); (12, 11, 9); (12, 12, 9); (12, 13, 9); (12, 14, 9); (12, 15, 9); (12, 16, 9); (12, 17, 9); (12, 18, 9); (12, 19, 9); (13, 10, 9); (13, 11, 9); (13, 12, 9); (13, 13, 9); (13, 14, 9); (13, 15, 9); (13, 16, 9); (13, 17, 9); (13, 18, 9); (14, 10, 9); (14, 11, 9); (14, 12, 9); (14, 13, 9); (14, 14, 9); (14, 15, 9); (14, 16, 9); (14, 17, 9); (15, 10, 9); (15, 11, 9); (15, 12, 9); (15, 13, 9); (15, 14, 9); (15, 15, 9); (15, 16, 9); (16, 10, 9); (16, 11, 9); (16, 12, 9); (16, 13, 9); (16, 14, 9); (16, 15, 9); (17, 10, 9); (17, 11, 9); (17, 12, 9); (17, 13, 9); (17, 14, 9); (18, 10, 9); (18, 11, 9); (18, 12, 9); (18, 13, 9); (19, 10, 9); (19, 11, 9); (19, 12, 9); (20, 10, 9); (20, 11, 9)];
  same_cells (calc_triangle_pos test_grid (slit 1 5) 100 (mkVec (nar (f := FltB) (dsub (f := FltB) (dlit 10 1) (dlit 1 5))) (nar (f := FltB) (dadd (f := FltB) (dlit 0 1) (dlit 1 5))) (nar (f := FltB) (dsub (f := FltB) (dlit 0 1) (dlit 1 5)))) (mkVec (nar (f := FltB) (dadd (f := FltB) (dlit 0 1) (dlit 1 5))) (nar (f := FltB) (dadd (f := FltB) (dlit 0 1) (dlit 1 5))) (nar (f := FltB) (dsub (f := FltB) (dlit 0 1) (dlit 1 5)))) (mkVec (nar (f := FltB) (dadd (f := FltB) (dlit 0 1) (dlit 1 5))) (nar (f := FltB) (dsub (f := FltB) (dlit 10 1) (dlit 1 5))) (nar (f := FltB) (dsub (f := FltB) (dlit 0 1) (dlit 1 5)))))
    [(10, 10, 9); (10, 11, 9); (10, 12, 9); (10, 13, 9); (10, 14, 9); (10, 15, 9); (10, 16, 9); (10, 17, 9); (10, 18, 9); (10, 19, 9); (10, 20, 9); (11, 10, 9); (11, 11, 9); (11, 12, 9); (11, 13, 9); (11, 14, 9); (11, 15, 9); (11, 16, 9); (11, 17, 9); (11, 18, 9); (11, 19, 9); (11, 20, 9); (12, 10, 9); (12, 11, 9); (12, 12, 9); (12, 13, 9); (12, 14, 9); (12, 15, 9); (12, 16, 9); (12, 17, 9); (12, 18, 9); (12, 19, 9); (13, 10, 9); (13, 11, 9); (13, 12, 9); (13, 13, 9); (13, 14, 9); (13, 15, 9); (13, 16, 9); (13, 17, 9); (13, 18, 9); (14, 10, 9); (14, 11, 9); (14, 12, 9); (14, 13, 9); (14, 14, 9); (14, 15, 9); (14, 16, 9); (14, 17, 9); (15, 10, 9); (15, 11, 9); (15, 12, 9); (15, 13, 9); (15, 14, 9); (15, 15, 9); (15, 16, 9); (16, 10, 9); (16, 11, 9); (16, 12, 9); (16, 13, 9); (16, 14, 9); (16, 15, 9); (17, 10, 9); (17, 11, 9); (17, 12, 9); (17, 13, 9); (17, 14, 9); (18, 10, 9); (18, 11, 9); (18, 12, 9); (18, 13, 9); (19, 10, 9); (19, 11, 9); (19, 12, 9); (20, 10, 9); (20, 11, 9)];
  same_cells (calc_triangle_pos test_grid (slit 1 5) 100 (mkVec (nar (f := FltB) (dsub (f := FltB) (dlit 10 1) (dlit 1 5))) (nar (f := FltB) (dadd (f := FltB) (dlit 0 1) (dlit 1 5))) (nar (f := FltB) (dsub (f := FltB) (dlit 0 1) (dlit 1 5)))) (mkVec (nar (f := FltB) (dadd (f := FltB) (dlit 0 1) (dlit 1 5))) (nar (f := FltB) (dsub (f := FltB) (dlit 10 1) (dlit 1 5))) (nar (f := FltB) (dsub (f := FltB) (dlit 0 1) (dlit 1 5)))) (mkVec (nar (f := FltB) (dadd (f := FltB) (dlit 0 1) (dlit 1 5))) (nar (f := FltB) (dadd (f := FltB) (dlit 0 1) (dlit 1 5))) (nar (f := FltB) (dsub (f := FltB) (dlit 0 1) (dlit 1 5)))))
    [(10, 10, 9); (10, 11, 9); (10, 12, 9); (10, 13, 9); (10, 14, 9); (10, 15, 9); (10, 16, 9); (10, 17, 9); (10, 18, 9); (10, 19, 9); (10, 20, 9); (11, 10, 9); (11, 11, 9); (11, 12, 9); (11, 13, 9); (11, 14, 9); (11, 15, 9); (11, 16, 9); (11, 17, 9); (11, 18, 9); (11, 19, 9); (11, 20, 9); (12, 10, 9); (12, 11, 9); (12, 12, 9); (12, 13, 9); (12, 14, 9); (12, 15, 9); (12, 16, 9); (12, 17, 9); (12, 18, 9); (12, 19, 9); (13, 10, 9); (13, 11, 9); (13, 12, 9); (13, 13, 9); (13, 14, 9); (13, 15, 9); (13, 16, 9); (13, 17, 9); (13, 18, 9); (14, 10, 9); (14, 11, 9); (14, 12, 9); (14, 13, 9); (14, 14, 9); (14, 15, 9); (14, 16, 9); (14, 17, 9); (15, 10, 9); (15, 11, 9); (15, 12, 9); (15, 13, 9); (15, 14, 9); (15, 15, 9); (15, 16, 9); (16, 10, 9); (16, 11, 9); (16, 12, 9); (16, 13, 9); (16, 14, 9); (16, 15, 9); (17, 10, 9); (17, 11, 9); (17, 12, 9); (17, 13, 9); (17, 14, 9); (18, 10, 9); (18, 11, 9); (18, 12, 9); (18, 13, 9); (19, 10, 9); (19, 11, 9); (19, 12, 9); (20, 10, 9); (20, 11, 9)];
  same_cells (calc_triangle_pos test_grid (slit 1 5) 100 (mkVec (nar (f := FltB) (dadd (f := FltB) (dlit 0 1) (dlit 1 5))) (nar (f := FltB) (dsub (f := FltB) (dlit 10 1) (dlit 1 5))) (nar (f := FltB) (dsub (f := FltB) (dlit 0 1) (dlit 1 5)))) (mkVec (nar (f := FltB) (dadd (f := FltB) (dlit 0 1) (dlit 1 5))) (nar (f := FltB) (dadd (f := FltB) (dlit 0 1) (dlit 1 5))) (nar (f := FltB) (dsub (f := FltB) (dlit 0 1) (dlit 1 5)))) (mkVec (nar (f := FltB) (dsub (f := FltB) (dlit 10 1) (dlit 1 5))) (nar (f := FltB) (dadd (f := FltB) (dlit 0 1) (dlit 1 5))) (nar (f := FltB) (dsub (f := FltB) (dlit 0 1) (dlit 1 5)))))
    [(10, 10, 9); (10, 11, 9); (10, 12, 9); (10, 13, 9); (10, 14, 9); (10, 15, 9); (10, 16, 9); (10, 17, 9); (10, 18, 9); (10, 19, 9); (10, 20, 9); (11, 10, 9); (11, 11, 9); (11, 12, 9); (11, 13, 9); (11, 14, 9); (11, 15, 9); (11, 16, 9); (11, 17, 9); (11, 18, 9); (11, 19, 9); (11, 20, 9); (12, 10, 9); (12, 11, 9); (12, 12, 9); (12, 13, 9); (12, 14, 9); (12, 15, 9); (12, 16, 9); (12, 17, 9); (12, 18, 9); (12, 19, 9); (13, 10, 9); (13, 11, 9); (13, 12, 9); (13, 13, 9); (13, 14, 9); (13, 15, 9); (13, 16, 9); (13, 17, 9); (13, 18, 9); (14, 10, 9); (14, 11, 9); (14, 12, 9); (14, 13, 9); (14, 14, 9); (14, 15, 9); (14, 16, 9); (14, 17, 9); (15, 10, 9); (15, 11, 9); (15, 12, 9); (15, 13, 9); (15, 14, 9); (15, 15, 9); (15, 16, 9); (16, 10, 9); (16, 11, 9); (16, 12, 9); (16, 13, 9); (16, 14, 9); (16, 15, 9); (17, 10, 9); (17, 11, 9); (17, 12, 9); (17, 13, 9); (17, 14, 9); (18, 10, 9); (18, 11, 9); (18, 12, 9); (18, 13, 9); (19, 10, 9); (19, 11, 9); (19, 12, 9); (20, 10, 9); (20, 11, 9)];
  same_cells (calc_triangle_pos test_grid (slit 1 5) 100 (mkVec (nar (f := FltB) (dadd (f := FltB) (dlit 0 1) (dlit 1 5))) (nar (f := FltB) (dsub (f := FltB) (dlit 10 1) (dlit 1 5))) (nar (f := FltB) (dsub (f := FltB) (dlit 0 1) (dlit 1 5)))) (mkVec (nar (f := FltB) (dsub (f := FltB) (dlit 10 1) (dlit 1 5))) (nar (f := FltB) (dadd (f := FltB) (dlit 0 1) (dlit 1 5))) (nar (f := FltB) (dsub (f := FltB) (dlit 0 1) (dlit 1 5)))) (mkVec (nar (f := FltB) (dadd (f := FltB) (dlit 0 1) (dlit 1 5))) (nar (f := FltB) (dadd (f := FltB) (dlit 0 1) (dlit 1 5))) (nar (f := FltB) (dsub (f := FltB) (dlit 0 1) (dlit 1 5)))))
    [(10, 10, 9); (10, 11, 9); (10, 12, 9); (10, 13, 9); (10, 14, 9); (10, 15, 9); (10, 16, 9); (10, 17, 9); (10, 18, 9); (10, 19, 9); (10, 20, 9); (11, 10, 9); (11, 11, 9); (11, 12, 9); (11, 13, 9); (11, 14, 9); (11, 15, 9); (11, 16, 9); (11, 17, 9); (11, 18, 9); (11, 19, 9); (11, 20, 9); (12, 10, 9); (12, 11, 9); (12, 12, 9); (12, 13, 9); (12, 14, 9); (12, 15, 9); (12, 16, 9); (12, 17, 9); (12, 18, 9); (12, 19, 9); (13, 10, 9); (13, 11, 9); (13, 12, 9); (13, 13, 9); (13, 14, 9); (13, 15, 9); (13, 16, 9); (13, 17, 9); (13, 18, 9); (14, 10, 9); (14, 11, 9); (14, 12, 9); (14, 13, 9); (14, 14, 9); (14, 15, 9); (14, 16, 9); (14, 17, 9); (15, 10, 9); (15, 11, 9); (15, 12, 9); (15, 13, 9); (15, 14, 9); (15, 15, 9); (15, 16, 9); (16, 10, 9); (16, 11, 9); (16, 12, 9); (16, 13, 9); (16, 14, 9); (16, 15, 9); (17, 10, 9); (17, 11, 9); (17, 12, 9); (17, 13, 9); (17, 14, 9); (18, 10, 9); (18, 11, 9); (18, 12, 9); (18, 13, 9); (19, 10, 9); (19, 11, 9); (19, 12, 9); (20, 10, 9); (20, 11, 9)]].
Example BP_CT_1_pass : forallb id BP_CT_1 = true.
Proof. vm_cast_no_check (@eq_refl bool true). Qed.

Definition BP_CT_2 : list bool := [
  same_cells (calc_triangle_pos test_grid (slit 1 5) 100 (mkVec (nar (f := FltB) (dadd (f := FltB) (dlit 0 1) (dlit 1 5))) (nar (f := FltB) (dsub (f := FltB) (dlit 0 1) (dlit 1 5))) (nar (f := FltB) (dadd (f := FltB) (dlit 0 1) (dlit 1 5)))) (mkVec (nar (f := FltB) (dsub (f := FltB) (dlit 10 1) (dlit 1 5))) (nar (f := FltB) (dsub (f := FltB) (dlit 0 1) (dlit 1 5))) (nar (f := FltB) (dadd (f := FltB) (dlit 0 1) (dlit 1 5)))) (mkVec (nar (f := FltB) (dadd (f := FltB) (dlit 0 1) (dlit 1 5))) (nar (f := FltB) (dsub (f := FltB) (dlit 0 1) (dlit 1 5))) (nar (f := FltB) (dsub (f := FltB) (dlit 10 1) (dlit 1 5)))))
    [(10, 10, 10); (10, 10, 11); (10, 10, 12); (10, 10, 13); (10, 10, 14); (10, 10, 15); (10, 10, 16); (10, 10, 17); (10, 10, 18); (10, 10, 19); (11, 10, 10); (11, 10, 18); (11, 10, 19); (12, 10, 10); (12, 10, 17); (12, 10, 18); (13, 10, 10); (13, 10, 16); (13, 10, 17); (14, 10, 10); (14, 10, 15); (14, 10, 16); (15, 10, 10); (15, 10, 14); (15, 10, 15); (16, 10, 10); (16, 10, 13); (16, 10, 14); (17, 10, 10); (17, 10, 12); (17, 10, 13); (18, 10, 10); (18, 10, 11); (18, 10, 12); (19, 10, 10); (19, 10, 11); (20, 10, 10)];
  same_cells (calc_triangle_pos test_grid (slit 1 5) 100 (mkVec (nar (f := FltB) (dadd (f := FltB) (dlit 0 1) (dlit 1 5))) (nar (f := FltB) (dsub (f := FltB) (dlit 0 1) (dlit 1 5))) (nar (f := FltB) (dadd (f := FltB) (dlit 0 1) (dlit 1 5)))) (mkVec (nar (f := FltB) (dadd (f := FltB) (dlit 0 1) (dlit 1 5))) (nar (f := FltB) (dsub (f := FltB) (dlit 0 1) (dlit 1 5))) (nar (f := FltB) (dsub (f := FltB) (dlit 10 1) (dlit 1 5)))) (mkVec (nar (f := FltB) (dsub (f := FltB) (dlit 10 1) (dlit 1 5))) (nar (f := FltB) (dsub (f := FltB) (dlit 0 1) (dlit 1 5))) (nar (f := FltB) (dadd (f := FltB) (dlit 0 1) (dlit 1 5)))))
    [(10, 10, 10); (10, 10, 11); (10, 10, 12); (10, 10, 13); (10, 10, 14); (10, 10, 15); (10, 10, 16); (10, 10, 17); (10, 10, 18); (10, 10, 19); (11, 10, 10); (11, 10, 18); (11, 10, 19); (12, 10, 10); (12, 10, 17); (12, 10, 18); (13, 10, 10); (13, 10, 16); (13, 10, 17); (14, 10, 10); (14, 10, 15); (14, 10, 16); (15, 10, 10); (15, 10, 14); (15, 10, 15); (16, 10, 10); (16, 10, 13); (16, 10, 14); (17, 10, 10); (17, 10, 12); (17, 10, 13); (18, 10, 10); (18, 10, 11); (18, 10, 12); (19, 10, 10); (19, 10, 11); (20, 10, 10)];
  same_cells (calc_triangle_pos test_grid (slit 1 5) 100 (mkVec (nar (f := FltB) (dsub (f := FltB) (dlit 10 1) (dlit 1 5))) (nar (f := FltB) (dsub (f := FltB) (dlit 0 1) (dlit 1 5))) (nar (f := FltB) (dadd (f := FltB) (dlit 0 1) (dlit 1 5)))) (mkVec (nar (f := FltB) (dadd (f := FltB) (dlit 0 1) (dlit 1 5))) (nar (f := FltB) (dsub (f := FltB) (dlit 0 1) (dlit 1 5))) (nar (f := FltB) (dadd (f := FltB) (dlit 0 1) (dlit 1 5)))) (mkVec (nar (f := FltB) (dadd (f := FltB) (dlit 0 1) (dlit 1 5))) (nar (f := FltB) (dsub (f := FltB) (dlit 0 1) (dlit 1 5))) (nar (f := FltB) (dsub (f := FltB) (dlit 10 1) (dlit 1 5)))))
    [(10, 10, 10); (10, 10, 11); (10, 10, 12); (10, 10, 13); (10, 10, 14); (10, 10, 15); (10, 10, 16); (10, 10, 17); (10, 10, 18); (10, 10, 19); (11, 10, 10); (11, 10, 18); (11, 10, 19); (12, 10, 10); (12, 10, 17); (12, 10, 18); (13, 10, 10); (13, 10, 16); (13, 10, 17); (14, 10, 10); (14, 10, 15); (14, 10, 16); (15, 10, 10); (15, 10, 14); (15, 10, 15); (16, 10, 10); (16, 10, 13); (16, 10, 14); (17, 10, 10); (17, 10, 12); (17, 10, 13); (18, 10, 10); (18, 10, 11); (18, 10, 12); (19, 10, 10); (19, 10, 11); (20, 10, 10)];
  same_cells (calc_triangle_pos test_grid (slit 1 5) 100 (mkVec (nar (f := FltB) (dsub (f := FltB) (dlit 10 1) (dlit 1 5))) (nar (f := FltB) (dsub (f := FltB) (dlit 0 1) (dlit 1 5))) (nar (f := FltB) (dadd (f := FltB) (dlit 0 1) (dlit 1 5)))) (mkVec (nar (f := FltB) (dadd (f := FltB) (dlit 0 1) (dlit 1 5))) (nar (f := FltB) (dsub (f := FltB) (dlit 0 1) (dlit 1 5))) (nar (f := FltB) (dsub (f := FltB) (dlit 10 1) (dlit 1 5)))) (mkVec (nar (f := FltB) (dadd (f := FltB) (dlit 0 1) (dlit 1 5))) (nar (f := FltB) (dsub (f := FltB) (dlit 0 1) (dlit 1 5))) (nar (f := FltB) (dadd (f := FltB) (dlit 0 1) (dlit 1 5)))))
    [(10, 10, 10); (10, 10, 11); (10, 10, 12); (10, 10, 13); (10, 10, 14); (10, 10, 15); (10, 10, 16); (10, 10, 17); (10, 10, 18); (10, 10, 19); (11, 10, 10); (11, 10, 18); (11, 10, 19); (12, 10, 10); (12, 10, 17); (12, 10, 18); (13, 10, 10); (13, 10, 16); (13, 10, 17); (14, 10, 10); (14, 10, 15); (14, 10, 16); (15, 10, 10); (15, 10, 14); (15, 10, 15); (16, 10, 10); (16, 10, 13); (16, 10, 14); (17, 10, 10); (17, 10, 12); (17, 10, 13); (18, 10, 10); (18, 10, 11); (18, 10, 12); (19, 10, 10); (19, 10, 11); (20, 10, 10)];
  same_cells (calc_triangle_pos test_grid (slit 1 5) 100 (mkVec (nar (f := FltB) (dadd (f := FltB) (dlit 0 1) (dlit 1 5))) (nar (f := FltB) (dsub (f := FltB) (dlit 0 1) (dlit 1 5))) (nar (f := FltB) (dsub (f := FltB) (dlit 10 1) (dlit 1 5)))) (mkVec (nar (f := FltB) (dadd (f := FltB) (dlit 0 1) (dlit 1 5))) (nar (f := FltB) (dsub (f := FltB) (dlit 0 1) (dlit 1 5))) (nar (f := FltB) (dadd (f := FltB) (dlit 0 1) (dlit 1 5)))) (mkVec (nar (f := FltB) (dsub (f := FltB) (dlit 10 1) (dlit 1 5))) (nar (f := FltB) (dsub (f := FltB) (dlit 0 1) (dlit 1 5))) (nar (f := FltB) (dadd (f := FltB) (dlit 0 1) (dlit 1 5)))))
    [(10, 10, 10); (10, 10, 11); (10, 10, 12); (10, 10, 13); (10, 10, 14); (10, 10, 15); (10, 10, 16); (10, 10, 17); (10, 10, 18); (10, 10, 19); (11, 10, 10); (11, 10, 18); (11, 10, 19); (12, 10, 10); (12, 10, 17); (12, 10, 18); (13, 10, 10); (13, 10, 16); (13, 10, 17); (14, 10, 10); (14, 10, 15); (14, 10, 16); (15, 10, 10); (15, 10, 14); (15, 10, 15); (16, 10, 10); (16, 10, 13); (16, 10, 14); (17, 10, 10); (17, 10, 12); (17, 10, 13); (18, 10, 10); (18, 10, 11); (18, 10, 12); (19, 10, 10); (19, 10, 11); (20, 10, 10)];
  same_cells (calc_triangle_pos test_grid (slit 1 5) 100 (mkVec (nar (f := FltB) (dadd (f := FltB) (dlit 0 1) (dlit 1 5))) (nar (f := FltB) (dsub (f := FltB) (dlit 0 1) (dlit 1 5))) (nar (f := FltB) (dsub (f := FltB) (dlit 10 1) (dlit 1 5)))) (mkVec (nar (f := FltB) (dsub (f := FltB) (dlit 10 1) (dlit 1 5))) (nar (f := FltB) (dsub (f := FltB) (dlit 0 1) (dlit 1 5))) (nar (f := FltB) (dadd (f := FltB) (dlit 0 1) (dlit 1 5)))) (mkVec (nar (f := FltB) (dadd (f := FltB) (dlit 0 1) (dlit 1 5))) (nar (f := FltB) (dsub (f := FltB) (dlit 0 1) (dlit 1 5))) (nar (f := FltB) (dadd (f := FltB) (dlit 0 1) (dlit 1 5)))))
    [(10, 10, 10); (10, 10, 11); (10, 10, 12); (10, 10, 13); (10, 10, 14); (10, 10, 15); (10, 10, 16); (10, 10, 17); (10, 10, 18); (10, 10, 19); (11, 10, 10); (11, 10, 18); (11, 10, 19); (12, 10, 10); (12, 10, 17); (12, 10, 18); (13, 10, 10); (13, 10, 16); (13, 10, 17); (14, 10, 10); (14, 10, 15); (14, 10, 16); (15, 10, 10); (15, 10, 14); (15, 10, 15); (16, 10, 10); (16, 10, 13); (16, 10, 14); (17, 10, 10); (17, 10, 12); (17, 10, 13); (18, 10, 10); (18, 10, 11); (18, 10, 12); (19, 10, 10); (19, 10, 11); (20, 10, 10)]].
Example BP_CT_2_pass : forallb id BP_CT_2 = true.
Proof. vm_cast_no_check (@eq_refl bool true). Qed.

Definition BP_CT_3 : list bool := [
  same_cells (calc_triangle_pos test_grid (slit 1 5) 100 (mkVec (nar (f := FltB) (dadd (f := FltB) (dlit 5 1) (dlit 1 5))) (nar (f := FltB) (dadd (f := FltB) (dlit 0 1) (dlit 1 5))) (nar (f := FltB) (dadd (f := FltB) (dlit 5 1) (dlit 1 5)))) (mkVec (nar (f := FltB) (dsub (f := FltB) (dlit 6 1) (dlit 1 5))) (nar (f := FltB) (dadd (f := FltB) (dlit 0 1) (dlit 1 5))) (nar (f := FltB) (dsub (f := FltB) (dlit 6 1) (dlit 1 5)))) (mkVec (nar (f := FltB) (dsub (f := FltB) (dlit 6 1) (dlit 2 5))) (nar (f := FltB) (dsub (f := FltB) (dlit 5 1) (dlit 1 5))) (nar (f := FltB) (dsub (f := FltB) (dlit 6 1) (dlit 2 5)))))
    [(15, 10, 15); (15, 11, 15); (15, 12, 15); (15, 13, 15); (16, 10, 15); (16, 11, 15); (16, 12, 15); (16, 13, 15); (16, 14, 15); (16, 15, 15)];
  same_cells (calc_triangle_pos test_grid (slit 1 5) 100 (mkVec (nar (f := FltB) (dadd (f := FltB) (dlit 5 1) (dlit 1 5))) (nar (f := FltB) (dadd (f := FltB) (dlit 0 1) (dlit 1 5))) (nar (f := FltB) (dadd (f := FltB) (dlit 5 1) (dlit 1 5)))) (mkVec (nar (f := FltB) (dsub (f := FltB) (dlit 6 1) (dlit 2 5))) (nar (f := FltB) (dsub (f := FltB) (dlit 5 1) (dlit 1 5))) (nar (f := FltB) (dsub (f := FltB) (dlit 6 1) (dlit 2 5)))) (mkVec (nar (f := FltB) (dsub (f := FltB) (dlit 6 1) (dlit 1 5))) (nar (f := FltB) (dadd (f := FltB) (dlit 0 1) (dlit 1 5))) (nar (f := FltB) (dsub (f := FltB) (dlit 6 1) (dlit 1 5)))))
    [(15, 10, 15); (15, 11, 15); (15, 12, 15); (15, 13, 15); (16, 10, 15); (16, 11, 15); (16, 12, 15); (16, 13, 15); (16, 14, 15); (16, 15, 15)];
  same_cells (calc_triangle_pos test_grid (slit 1 5) 100 (mkVec (nar (f := FltB) (dsub (f := FltB) (dlit 6 1) (dlit 1 5))) (nar (f := FltB) (dadd (f := FltB) (dlit 0 1) (dlit 1 5))) (nar (f := FltB) (dsub (f := FltB) (dlit 6 1) (dlit 1 5)))) (mkVec (nar (f := FltB) (dadd (f := FltB) (dlit 5 1) (dlit 1 5))) (nar (f := FltB) (dadd (f := FltB) (dlit 0 1) (dlit 1 5))) (nar (f := FltB) (dadd (f := FltB) (dlit 5 1) (dlit 1 5)))) (mkVec (nar (f := FltB) (dsub (f := FltB) (dlit 6 1) (dlit 2 5))) (nar (f := FltB) (dsub (f := FltB) (dlit 5 1) (dlit 1 5))) (nar (f := FltB) (dsub (f := FltB) (dlit 6 1) (dlit 2 5)))))
    [(15, 10, 15); (15, 11, 15); (15, 12, 15); (15, 13, 15); (16, 10, 15); (16, 11, 15); (16, 12, 15); (16, 13, 15); (16, 14, 15); (16, 15, 15)];
  same_cells (calc_triangle_pos test_grid (slit 1 5) 100 (mkVec (nar (f := FltB) (dsub (f := FltB) (dlit 6 1) (dlit 1 5))) (nar (f := FltB) (dadd (f := FltB) (dlit 0 1) (dlit 1 5))) (nar (f := FltB) (dsub (f := FltB) (dlit 6 1) (dlit 1 5)))) (mkVec (nar (f := FltB) (dsub (f := FltB) (dlit 6 1) (dlit 2 5))) (nar (f := FltB) (dsub (f := FltB) (dlit 5 1) (dlit 1 5))) (nar (f := FltB) (dsub (f := FltB) (dlit 6 1) (dlit 2 5)))) (mkVec (nar (f := FltB) (dadd (f := FltB) (dlit 5 1) (dlit 1 5))) (nar (f := FltB) (dadd (f := FltB) (dlit 0 1) (dlit 1 5))) (nar (f := FltB) (dadd (f := FltB) (dlit 5 1) (dlit 1 5)))))
    [(15, 10, 15); (15, 11, 15); (15, 12, 15); (15, 13, 15); (16, 10, 15); (16, 11, 15); (16, 12, 15); (16, 13, 15); (16, 14, 15); (16, 15, 15)];
  same_cells (calc_triangle_pos test_grid (slit 1 5) 100 (mkVec (nar (f := FltB) (dsub (f := FltB) (dlit 6 1) (dlit 2 5))) (nar (f := FltB) (dsub (f := FltB) (dlit 5 1) (dlit 1 5))) (nar (f := FltB) (dsub (f := FltB) (dlit 6 1) (dlit 2 5)))) (mkVec (nar (f := FltB) (dadd (f := FltB) (dlit 5 1) (dlit 1 5))) (nar (f := FltB) (dadd (f := FltB) (dlit 0 1) (dlit 1 5))) (nar (f := FltB) (dadd (f := FltB) (dlit 5 1) (dlit 1 5)))) (mkVec (nar (f := FltB) (dsub (f := FltB) (dlit 6 1) (dlit 1 5))) (nar (f := FltB) (dadd (f := FltB) (dlit 0 1) (dlit 1 5))) (nar (f := FltB) (dsub (f := FltB) (dlit 6 1) (dlit 1 5)))))
    [(15, 10, 15); (15, 11, 15); (15, 12, 15); (15, 13, 15); (16, 10, 15); (16, 11, 15); (16, 12, 15); (16, 13, 15); (16, 14, 15); (16, 15, 15)];
  same_cells (calc_triangle_pos test_grid (slit 1 5) 100 (mkVec (nar (f := FltB) (dsub (f := FltB) (dlit 6 1) (dlit 2 5))) (nar (f := FltB) (dsub (f := FltB) (dlit 5 1) (dlit 1 5))) (nar (f := FltB) (dsub (f := FltB) (dlit 6 1) (dlit 2 5)))) (mkVec (nar (f := FltB) (dsub (f := FltB) (dlit 6 1) (dlit 1 5))) (nar (f := FltB) (dadd (f := FltB) (dlit 0 1) (dlit 1 5))) (nar (f := FltB) (dsub (f := FltB) (dlit 6 1) (dlit 1 5)))) (mkVec (nar (f := FltB) (dadd (f := FltB) (dlit 5 1) (dlit 1 5))) (nar (f := FltB) (dadd (f := FltB) (dlit 0 1) (dlit 1 5))) (nar (f := FltB) (dadd (f := FltB) (dlit 5 1) (dlit 1 5)))))
    [(15, 10, 15); (15, 11, 15); (15, 12, 15); (15, 13, 15); (16, 10, 15); (16, 11, 15); (16, 12, 15); (16, 13, 15); (16, 14, 15); (16, 15, 15)]].
Example BP_CT_3_pass : forallb id BP_CT_3 = true.
Proof. vm_cast_no_check (@eq_refl bool true). Qed.

Definition BP_CT_4 : list bool := [
  same_cells (calc_triangle_pos test_grid (slit 1 5) 100 (mkVec (nar (f := FltB) (dadd (f := FltB) (dlit 34 2) (dlit 1 5))) (nar (f := FltB) (dadd (f := FltB) (dlit 56 2) (dlit 1 5))) (nar (f := FltB) (dsub (f := FltB) (dlit 0 1) (dlit 1 5)))) (mkVec (nar (f := FltB) (dsub (f := FltB) (dlit 74 2) (dlit 1 5))) (nar (f := FltB) (dsub (f := FltB) (dlit 97 2) (dlit 1 5))) (nar (f := FltB) (dsub (f := FltB) (dlit 0 1) (dlit 1 5)))) (mkVec (nar (f := FltB) (dsub (f := FltB) (dlit 74 2) (dlit 1 5))) (nar (f := FltB) (dsub (f := FltB) (dlit 97 2) (dlit 1 5))) (nar (f := FltB) (dsub (f := FltB) (dlit 0 1) (dlit 1 5)))))
    [(13, 16, 9); (14, 16, 9); (14, 17, 9); (15, 17, 9); (15, 18, 9); (16, 18, 9); (16, 19, 9); (17, 19, 9); (17, 20, 9)];
  same_cells (calc_triangle_pos test_grid (slit 1 5) 100 (mkVec (nar (f := FltB) (dadd (f := FltB) (dlit 34 2) (dlit 1 5))) (nar (f := FltB) (dadd (f := FltB) (dlit 56 2) (dlit 1 5))) (nar (f := FltB) (dsub (f := FltB) (dlit 0 1) (dlit 1 5)))) (mkVec (nar (f := FltB) (dsub (f := FltB) (dlit 74 2) (dlit 1 5))) (nar (f := FltB) (dsub (f := FltB) (dlit 97 2) (dlit 1 5))) (nar (f := FltB) (dsub (f := FltB) (dlit 0 1) (dlit 1 5)))) (mkVec (nar (f := FltB) (dsub (f := FltB) (dlit 74 2) (dlit 1 5))) (nar (f := FltB) (dsub (f := FltB) (dlit 97 2) (dlit 1 5))) (nar (f := FltB) (dsub (f := FltB) (dlit 0 1) (dlit 1 5)))))
    [(13, 16, 9); (14, 16, 9); (14, 17, 9); (15, 17, 9); (15, 18, 9); (16, 18, 9); (16, 19, 9); (17, 19, 9); (17, 20, 9)];
  same_cells (calc_triangle_pos test_grid (slit 1 5) 100 (mkVec (nar (f := FltB) (dsub (f := FltB) (dlit 74 2) (dlit 1 5))) (nar (f := FltB) (dsub (f := FltB) (dlit 97 2) (dlit 1 5))) (nar (f := FltB) (dsub (f := FltB) (dlit 0 1) (dlit 1 5)))) (mkVec (nar (f := FltB) (dadd (f := FltB) (dlit 34 2) (dlit 1 5))) (nar (f := FltB) (dadd (f := FltB) (dlit 56 2) (dlit 1 5))) (nar (f := FltB) (dsub (f := FltB) (dlit 0 1) (dlit 1 5)))) (mkVec (nar (f := FltB) (dsub (f := FltB) (dlit 74 2) (dlit 1 5))) (nar (f := FltB) (dsub (f := FltB) (dlit 97 2) (dlit 1 5))) (nar (f := FltB) (dsub (f := FltB) (dlit 0 1) (dlit 1 5)))))
    [(13, 16, 9); (14, 16, 9); (14, 17, 9); (15, 17, 9); (15, 18, 9); (16, 18, 9); (16, 19, 9); (17, 19, 9); (17, 20, 9)];
  same_cells (calc_triangle_pos test_grid (slit 1 5) 100 (mkVec (nar (f := FltB) (dsub (f := FltB) (dlit 74 2) (dlit 1 5))) (nar (f := FltB) (dsub (f := FltB) (dlit 97 2) (dlit 1 5))) (nar (f := FltB) (dsub (f := FltB) (dlit 0 1) (dlit 1 5)))) (mkVec (nar (f := FltB) (dsub (f := FltB) (dlit 74 2) (dlit 1 5))) (nar (f := FltB) (dsub (f := FltB) (dlit 97 2) (dlit 1 5))) (nar (f := FltB) (dsub (f := FltB) (dlit 0 1) (dlit 1 5)))) (mkVec (nar (f := FltB) (dadd (f := FltB) (dlit 34 2) (dlit 1 5))) (nar (f := FltB) (dadd (f := FltB) (dlit 56 2) (dlit 1 5))) (nar (f := FltB) (dsub (f := FltB) (dlit 0 1) (dlit 1 5)))))
    [(13, 16, 9); (14, 16, 9); (14, 17, 9); (15, 17, 9); (15, 18, 9); (16, 18, 9); (16, 19, 9); (17, 19, 9); (17, 20, 9)];
  same_cells (calc_triangle_pos test_grid (slit 1 5) 100 (mkVec (nar (f := FltB) (dsub (f := FltB) (dlit 74 2) (dlit 1 5))) (nar (f := FltB) (dsub (f := FltB) (dlit 97 2) (dlit 1 5))) (nar (f := FltB) (dsub (f := FltB) (dlit 0 1) (dlit 1 5)))) (mkVec (nar (f := FltB) (dadd (f := FltB) (dlit 34 2) (dlit 1 5))) (nar (f := FltB) (dadd (f := FltB) (dlit 56 2) (dlit 1 5))) (nar (f := FltB) (dsub (f := FltB) (dlit 0 1) (dlit 1 5)))) (mkVec (nar (f := FltB) (dsub (f := FltB) (dlit 74 2) (dlit 1 5))) (nar (f := FltB) (dsub (f := FltB) (dlit 97 2) (dlit 1 5))) (nar (f := FltB) (dsub (f := FltB) (dlit 0 1) (dlit 1 5)))))
    [(13, 16, 9); (14, 16, 9); (14, 17, 9); (15, 17, 9); (15, 18, 9); (16, 18, 9); (16, 19, 9); (17, 19, 9); (17, 20, 9)];
  same_cells (calc_triangle_pos test_grid (slit 1 5) 100 (mkVec (nar (f := FltB) (dsub (f := FltB) (dlit 74 2) (dlit 1 5))) (nar (f := FltB) (dsub (f := FltB) (dlit 97 2) (dlit 1 5))) (nar (f := FltB) (dsub (f := FltB) (dlit 0 1) (dlit 1 5)))) (mkVec (nar (f := FltB) (dsub (f := FltB) (dlit 74 2) (dlit 1 5))) (nar (f := FltB) (dsub (f := FltB) (dlit 97 2) (dlit 1 5))) (nar (f := FltB) (dsub (f := FltB) (dlit 0 1) (dlit 1 5)))) (mkVec (nar (f := FltB) (dadd (f := FltB) (dlit 34 2) (dlit 1 5))) (nar (f := FltB) (dadd (f := FltB) (dlit 56 2) (dlit 1 5))) (nar (f := FltB) (dsub (f := FltB) (dlit 0 1) (dlit 1 5)))))
    [(13, 16, 9); (14, 16, 9); (14, 17, 9); (15, 17, 9); (15, 18, 9); (16, 18, 9); (16, 19, 9); (17, 19, 9); (17, 20, 9)]].
Example BP_CT_4_pass : forallb id BP_CT_4 = true.
Proof. vm_cast_no_check (@eq_refl bool true). Qed.

Definition BP_CT_5 : list bool := [
  same_cells (calc_triangle_pos test_grid (slit 1 5) 100 (mkVec (nar (f := FltB) (dsub (f := FltB) (dlit 5 1) (dlit 1 5))) (nar (f := FltB) (dsub (f := FltB) (dlit 5 1) (dlit 1 5))) (nar (f := FltB) (dsub (f := FltB) (dlit 5 1) (dlit 1 5)))) (mkVec (nar (f := FltB) (dsub (f := FltB) (dlit 5 1) (dlit 1 5))) (nar (f := FltB) (dsub (f := FltB) (dlit 5 1) (dlit 1 5))) (nar (f := FltB) (dsub (f := FltB) (dlit 5 1) (dlit 1 5)))) (mkVec (nar (f := FltB) (dsub (f := FltB) (dlit 5 1) (dlit 1 5))) (nar (f := FltB) (dsub (f := FltB) (dlit 5 1) (dlit 1 5))) (nar (f := FltB) (dsub (f := FltB) (dlit 5 1) (dlit 1 5)))))
    [(15, 15, 14)];
  same_cells (calc_triangle_pos test_grid (slit 1 5) 100 (mkVec (nar (f := FltB) (dsub (f := FltB) (dlit 5 1) (dlit 1 5))) (nar (f := FltB) (dsub (f := FltB) (dlit 5 1) (dlit 1 5))) (nar (f := FltB) (dsub (f := FltB) (dlit 5 1) (dlit 1 5)))) (mkVec (nar (f := FltB) (dsub (f := FltB) (dlit 5 1) (dlit 1 5))) (nar (f := FltB) (dsub (f := FltB) (dlit 5 1) (dlit 1 5))) (nar (f := FltB) (dsub (f := FltB) (dlit 5 1) (dlit 1 5)))) (mkVec (nar (f := FltB) (dsub (f := FltB) (dlit 5 1) (dlit 1 5))) (nar (f := FltB) (dsub (f := FltB) (dlit 5 1) (dlit 1 5))) (nar (f := FltB) (dsub (f := FltB) (dlit 5 1) (dlit 1 5)))))
    [(15, 15, 14)];
  same_cells (calc_triangle_pos test_grid (slit 1 5) 100 (mkVec (nar (f := FltB) (dsub (f := FltB) (dlit 5 1) (dlit 1 5))) (nar (f := FltB) (dsub (f := FltB) (dlit 5 1) (dlit 1 5))) (nar (f := FltB) (dsub (f := FltB) (dlit 5 1) (dlit 1 5)))) (mkVec (nar (f := FltB) (dsub (f := FltB) (dlit 5 1) (dlit 1 5))) (nar (f := FltB) (dsub (f := FltB) (dlit 5 1) (dlit 1 5))) (nar (f := FltB) (dsub (f := FltB) (dlit 5 1) (dlit 1 5)))) (mkVec (nar (f := FltB) (dsub (f := FltB) (dlit 5 1) (dlit 1 5))) (nar (f := FltB) (dsub (f := FltB) (dlit 5 1) (dlit 1 5))) (nar (f := FltB) (dsub (f := FltB) (dlit 5 1) (dlit 1 5)))))
    [(15, 15, 14)];
  same_cells (calc_triangle_pos test_grid (slit 1 5) 100 (mkVec (nar (f := FltB) (dsub (f := FltB) (dlit 5 1) (dlit 1 5))) (nar (f := FltB) (dsub (f := FltB) (dlit 5 1) (dlit 1 5))) (nar (f := FltB) (dsub (f := FltB) (dlit 5 1) (dlit 1 5)))) (mkVec (nar (f := FltB) (dsub (f := FltB) (dlit 5 1) (dlit 1 5))) (nar (f := FltB) (dsub (f := FltB) (dlit 5 1) (dlit 1 5))) (nar (f := FltB) (dsub (f := FltB) (dlit 5 1) (dlit 1 5)))) (mkVec (nar (f := FltB) (dsub (f := FltB) (dlit 5 1) (dlit 1 5))) (nar (f := FltB) (dsub (f := FltB) (dlit 5 1) (dlit 1 5))) (nar (f := FltB) (dsub (f := FltB) (dlit 5 1) (dlit 1 5)))))
    [(15, 15, 14)];
  same_cells (calc_triangle_pos test_grid (slit 1 5) 100 (mkVec (nar (f := FltB) (dsub (f := FltB) (dlit 5 1) (dlit 1 5))) (nar (f := FltB) (dsub (f := FltB) (dlit 5 1) (dlit 1 5))) (nar (f := FltB) (dsub (f := FltB) (dlit 5 1) (dlit 1 5)))) (mkVec (nar (f := FltB) (dsub (f := FltB) (dlit 5 1) (dlit 1 5))) (nar (f := FltB) (dsub (f := FltB) (dlit 5 1) (dlit 1 5))) (nar (f := FltB) (dsub (f := FltB) (dlit 5 1) (dlit 1 5)))) (mkVec (nar (f := FltB) (dsub (f := FltB) (dlit 5 1) (dlit 1 5))) (nar (f := FltB) (dsub (f := FltB) (dlit 5 1) (dlit 1 5))) (nar (f := FltB) (dsub (f := FltB) (dlit 5 1) (dlit 1 5)))))
    [(15, 15, 14)];
  same_cells (calc_triangle_pos test_grid (slit 1 5) 100 (mkVec (nar (f := FltB) (dsub (f := FltB) (dlit 5 1) (dlit 1 5))) (nar (f := FltB) (dsub (f := FltB) (dlit 5 1) (dlit 1 5))) (nar (f := FltB) (dsub (f := FltB) (dlit 5 1) (dlit 1 5)))) (mkVec (nar (f := FltB) (dsub (f := FltB) (dlit 5 1) (dlit 1 5))) (nar (f := FltB) (dsub (f := FltB) (dlit 5 1) (dlit 1 5))) (nar (f := FltB) (dsub (f := FltB) (dlit 5 1) (dlit 1 5)))) (mkVec (nar (f := FltB) (dsub (f := FltB) (dlit 5 1) (dlit 1 5))) (nar (f := FltB) (dsub (f := FltB) (dlit 5 1) (dlit 1 5))) (nar (f := FltB) (dsub (f := FltB) (dlit 5 1) (dlit 1 5)))))
    [(15, 15, 14)]].
Example BP_CT_5_pass : forallb id BP_CT_5 = true.
Proof. vm_cast_no_check (@eq_refl bool true). Qed.

Definition BP_CB_Bu_1_out := Eval vm_compute in
  heights (placed_body ABucket
    [(slit 0 1); (slit 0 1); (slit 0 1)] [(slit 0 1); (slit 0 1); (slit 0 1)] [(slit 5 1); (slit 1 2); (slit 0 1)] [(slit 5 1); (slit 0 1); (slit 0 1)] (slit 5 1)
    (mkVec (slit 0 1) (slit 0 1) (slit 0 1)) (mkQuat (slit 10 1) (slit 0 1) (slit 0 1) (slit 0 1))).

Definition BP_CB_Bu_1 : list bool := [
  area_is BP_CB_Bu_1_out (mkArea 6 19 6 14);
  height_near BP_CB_Bu_1_out 0 10 10 (dlit (-3) 1);
  height_near BP_CB_Bu_1_out 1 10 10 (dlit 3 1);
  height_near BP_CB_Bu_1_out 0 11 10 (dlit (-3) 1);
  height_near BP_CB_Bu_1_out 1 11 10 (dlit 3 1);
  height_near BP_CB_Bu_1_out 0 12 10 (dlit (-3) 1);
  height_near BP_CB_Bu_1_out 1 12 10 (dlit 3 1);
  height_near BP_CB_Bu_1_out 0 13 10 (dlit (-3) 1);
  height_near BP_CB_Bu_1_out 1 13 10 (dlit 3 1);
  height_near BP_CB_Bu_1_out 0 14 10 (dlit (-3) 1);
  height_near BP_CB_Bu_1_out 1 14 10 (dlit 3 1);
  height_near BP_CB_Bu_1_out 0 15 10 (dlit (-3) 1);
  height_near BP_CB_Bu_1_out 1 15 10 (dlit 3 1);
  only_there BP_CB_Bu_1_out
    [(0, 10, 10); (0, 11, 10); (0, 12, 10); (0, 13, 10); (0, 14, 10); (0, 15, 10)]].
Example BP_CB_Bu_1_pass : forallb id BP_CB_Bu_1 = true.
Proof. vm_cast_no_check (@eq_refl bool true). Qed.

Definition BP_CB_Bu_2_out := Eval vm_compute in
  heights (placed_body ABucket
    [(slit 0 1); (slit 0 1); (slit 0 1)] [(slit 0 1); (slit 0 1); (slit 0 1)] [(slit 5 1); (slit 0 1); (slit (-1) 2)] [(slit 5 1); (slit 0 1); (slit 0 1)] (slit 5 1)
    (mkVec (slit 0 1) (slit 0 1) (slit 0 1)) (mkQuat (slit 10 1) (slit 0 1) (slit 0 1) (slit 0 1))).

Definition BP_CB_Bu_2 : list bool := [
  area_is BP_CB_Bu_2_out (mkArea 6 19 4 16);
  height_near BP_CB_Bu_2_out 0 6 6 (dlit 0 1);
  height_near BP_CB_Bu_2_out 0 6 7 (dlit 0 1);
  height_near BP_CB_Bu_2_out 0 6 8 (dlit 0 1);
  height_near BP_CB_Bu_2_out 0 6 9 (dlit 0 1);
  height_near BP_CB_Bu_2_out 0 6 10 (dlit 0 1);
  height_near BP_CB_Bu_2_out 0 6 11 (dlit 0 1);
  height_near BP_CB_Bu_2_out 0 6 12 (dlit 0 1);
  height_near BP_CB_Bu_2_out 0 6 13 (dlit 0 1);
  height_near BP_CB_Bu_2_out 0 6 14 (dlit 0 1);
  height_near BP_CB_Bu_2_out 0 6 15 (dlit 0 1);
  height_near BP_CB_Bu_2_out 0 7 6 (dlit 0 1);
  height_near BP_CB_Bu_2_out 0 7 7 (dlit 0 1);
  height_near BP_CB_Bu_2_out 0 7 8 (dlit 0 1);
  height_near BP_CB_Bu_2_out 0 7 9 (dlit 0 1);
  height_near BP_CB_Bu_2_out 0 7 10 (dlit 0 1);
  height_near BP_CB_Bu_2_out 0 7 11 (dlit 0 1);
  height_near BP_CB_Bu_2_out 0 7 12 (dlit 0 1);
  height_near BP_CB_Bu_2_out 0 7 13 (dlit 0 1);
  height_near BP_CB_Bu_2_out 0 7 14 (dlit 0 1);
  height_near BP_CB_Bu_2_out 0 7 15 (dlit 0 1);
  height_near BP_CB_Bu_2_out 0 8 6 (dlit 0 1);
  height_near BP_CB_Bu_2_out 0 8 7 (dlit 0 1);
  height_near BP_CB_Bu_2_out 0 8 8 (dlit 0 1);
  height_near BP_CB_Bu_2_out 0 8 9 (dlit 0 1);
  height_near BP_CB_Bu_2_out 0 8 10 (dlit 0 1);
  height_near BP_CB_Bu_2_out 0 8 11 (dlit 0 1);
  height_near BP_CB_Bu_2_out 0 8 12 (dlit 0 1);
  height_near BP_CB_Bu_2_out 0 8 13 (dlit 0 1);
  height_near BP_CB_Bu_2_out 0 8 14 (dlit 0 1);
  height_near BP_CB_Bu_2_out 0 8 15 (dlit 0 1);
  height_near BP_CB_Bu_2_out 0 9 6 (dlit 0 1);
  height_near BP_CB_Bu_2_out 0 9 7 (dlit 0 1);
  height_near BP_CB_Bu_2_out 0 9 8 (dlit 0 1);
  height_near BP_CB_Bu_2_out 0 9 9 (dlit 0 1);
  height_near BP_CB_Bu_2_out 0 9 10 (dlit 0 1);
  height_near BP_CB_Bu_2_out 0 9 11 (dlit 0 1);
  height_near BP_CB_Bu_2_out 0 9 12 (dlit 0 1);
  height_near BP_CB_Bu_2_out 0 9 13 (dlit 0 1);
  height_near BP_CB_Bu_2_out 0 9 14 (dlit 0 1);
  height_near BP_CB_Bu_2_out 0 9 15 (dlit 0 1);
  height_near BP_CB_Bu_2_out 0 10 6 (dlit 0 1);
  height_near BP_CB_Bu_2_out 0 10 7 (dlit 0 1);
  height_near BP_CB_Bu_2_out 0 10 8 (dlit (-1) 1);
  height_near BP_CB_Bu_2_out 0 10 9 (dlit (-1) 1);
  height_near BP_CB_Bu_2_out 0 10 10 (dlit (-1) 1);
  height_near BP_CB_Bu_2_out 0 10 11 (dlit (-1) 1);
  height_near BP_CB_Bu_2_out 0 10 12 (dlit (-1) 1);
  height_near BP_CB_Bu_2_out 0 10 13 (dlit 0 1);
  height_near BP_CB_Bu_2_out 0 10 14 (dlit 0 1);
  height_near BP_CB_Bu_2_out 0 10 15 (dlit 0 1);
  height_near BP_CB_Bu_2_out 0 11 6 (dlit 0 1);
  height_near BP_CB_Bu_2_out 0 11 7 (dlit 0 1);
  height_near BP_CB_Bu_2_out 0 11 8 (dlit (-1) 1);
  height_near BP_CB_Bu_2_out 0 11 9 (dlit (-1) 1);
  height_near BP_CB_Bu_2_out 0 11 10 (dlit (-1) 1);
  height_near BP_CB_Bu_2_out 0 11 11 (dlit (-1) 1);
  height_near BP_CB_Bu_2_out 0 11 12 (dlit (-1) 1);
  height_near BP_CB_Bu_2_out 0 11 13 (dlit 0 1);
  height_near BP_CB_Bu_2_out 0 11 14 (dlit 0 1);
  height_near BP_CB_Bu_2_out 0 11 15 (dlit 0 1);
  height_near BP_CB_Bu_2_out 0 12 6 (dlit 0 1);
  height_near BP_CB_Bu_2_out 0 12 7 (dlit 0 1);
  height_near BP_CB_Bu_2_out 0 12 8 (dlit (-1) 1);
  height_near BP_CB_Bu_2_out 0 12 9 (dlit (-1) 1);
  height_near BP_CB_Bu_2_out 0 12 10 (dlit (-1) 1);
  height_near BP_CB_Bu_2_out 0 12 11 (dlit (-1) 1);
  height_near BP_CB_Bu_2_out 0 12 12 (dlit (-1) 1);
  height_near BP_CB_Bu_2_out 0 12 13 (dlit 0 1);
  height_near BP_CB_Bu_2_out 0 12 14 (dlit 0 1);
  height_near BP_CB_Bu_2_out 0 12 15 (dlit 0 1);
  height_near BP_CB_Bu_2_out 0 13 6 (dlit 0 1);
  height_near BP_CB_Bu_2_out 0 13 7 (dlit 0 1);
  height_near BP_CB_Bu_2_out 0 13 8 (dlit (-1) 1);
  height_near BP_CB_Bu_2_out 0 13 9 (dlit (-1) 1);
  height_near BP_CB_Bu_2_out 0 13 10 (dlit (-1) 1);
  height_near BP_CB_Bu_2_out 0 13 11 (dlit (-1) 1);
  height_near BP_CB_Bu_2_out 0 13 12 (dlit (-1) 1);
  height_near BP_CB_Bu_2_out 0 13 13 (dlit 0 1);
  height_near BP_CB_Bu_2_out 0 13 14 (dlit 0 1);
  height_near BP_CB_Bu_2_out 0 13 15 (dlit 0 1);
  height_near BP_CB_Bu_2_out 0 14 6 (dlit 0 1);
  height_near BP_CB_Bu_2_out 0 14 7 (dlit 0 1);
  height_near BP_CB_Bu_2_out 0 14 8 (dlit (-1) 1);
  height_near BP_CB_Bu_2_out 0 14 9 (dlit (-1) 1);
  height_near BP_CB_Bu_2_out 0 14 10 (dlit (-1) 1);
  height_near BP_CB_Bu_2_out 0 14 11 (dlit (-1) 1);
  height_near BP_CB_Bu_2_out 0 14 12 (dlit (-1) 1);
  height_near BP_CB_Bu_2_out 0 14 13 (dlit 0 1);
  height_near BP_CB_Bu_2_out 0 14 14 (dlit 0 1);
  height_near BP_CB_Bu_2_out 0 14 15 (dlit 0 1);
  height_near BP_CB_Bu_2_out 0 15 6 (dlit 0 1);
  height_near BP_CB_Bu_2_out 0 15 7 (dlit 0 1);
  height_near BP_CB_Bu_2_out 0 15 8 (dlit (-1) 1);
  height_near BP_CB_Bu_2_out 0 15 9 (dlit (-1) 1);
  height_near BP_CB_Bu_2_out 0 15 10 (dlit (-1) 1);
  height_near BP_CB_Bu_2_out 0 15 11 (dlit (-1) 1);
  height_near BP_CB_Bu_2_out 0 15 12 (dlit (-1) 1);
  height_near BP_CB_Bu_2_out 0 15 13 (dlit 0 1);
  height_near BP_CB_Bu_2_out 0 15 14 (dlit 0 1);
  height_near BP_CB_Bu_2_out 0 15 15 (dlit 0 1);
  height_near BP_CB_Bu_2_out 0 16 6 (dlit 0 1);
  height_near BP_CB_Bu_2_out 0 16 7 (dlit 0 1);
  height_near BP_CB_Bu_2_out 0 16 8 (dlit 0 1);
  height_near BP_CB_Bu_2_out 0 16 9 (dlit 0 1);
  height_near BP_CB_Bu_2_out 0 16 10 (dlit 0 1);
  height_near BP_CB_Bu_2_out 0 16 11 (dlit 0 1);
  height_near BP_CB_Bu_2_out 0 16 12 (dlit 0 1);
  height_near BP_CB_Bu_2_out 0 16 13 (dlit 0 1);
  height_near BP_CB_Bu_2_out 0 16 14 (dlit 0 1);
  height_near BP_CB_Bu_2_out 0 16 15 (dlit 0 1);
  height_near BP_CB_Bu_2_out 0 17 6 (dlit 0 1);
  height_near BP_CB_Bu_2_out 0 17 7 (dlit 0 1);
  height_near BP_CB_Bu_2_out 0 17 8 (dlit 0 1);
  height_near BP_CB_Bu_2_out 0 17 9 (dlit 0 1);
  height_near BP_CB_Bu_2_out 0 17 10 (dlit 0 1);
  height_near BP_CB_Bu_2_out 0 17 11 (dlit 0 1);
  height_near BP_CB_Bu_2_out 0 17 12 (dlit 0 1);
  height_near BP_CB_Bu_2_out 0 17 13 (dlit 0 1);
  height_near BP_CB_Bu_2_out 0 17 14 (dlit 0 1);
  height_near BP_CB_Bu_2_out 0 17 15 (dlit 0 1);
  height_near BP_CB_Bu_2_out 0 18 6 (dlit 0 1);
  height_near BP_CB_Bu_2_out 0 18 7 (dlit 0 1);
  height_near BP_CB_Bu_2_out 0 18 8 (dlit 0 1);
  height_near BP_CB_Bu_2_out 0 18 9 (dlit 0 1);
  height_near BP_CB_Bu_2_out 0 18 10 (dlit 0 1);
  height_near BP_CB_Bu_2_out 0 18 11 (dlit 0 1);
  height_near BP_CB_Bu_2_out 0 18 12 (dlit 0 1);
  height_near BP_CB_Bu_2_out 0 18 13 (dlit 0 1);
  height_near BP_CB_Bu_2_out 0 18 14 (dlit 0 1);
  height_near BP_CB_Bu_2_out 0 18 15 (dlit 0 1);
  height_near BP_CB_Bu_2_out 0 19 6 (dlit 0 1);
  height_near BP_CB_Bu_2_out 0 19 7 (dlit 0 1);
  height_near BP_CB_Bu_2_out 0 19 8 (dlit 0 1);
  height_near BP_CB_Bu_2_out 0 19 9 (dlit 0 1);
  height_near BP_CB_Bu_2_out 0 19 10 (dlit 0 1);
  height_near BP_CB_Bu_2_out 0 19 11 (dlit 0 1);
  height_near BP_CB_Bu_2_out 0 19 12 (dlit 0 1);
  height_near BP_CB_Bu_2_out 0 19 13 (dlit 0 1);
  height_near BP_CB_Bu_2_out 0 19 14 (dlit 0 1);
  height_near BP_CB_Bu_2_out 0 19 15 (dlit 0 1);
  height_near BP_CB_Bu_2_out 1 6 6 (dlit 0 1);
  height_near BP_CB_Bu_2_out 1 6 7 (dlit 0 1);
  height_near BP_CB_Bu_2_out 1 6 8 (dlit 0 1);
  height_near BP_CB_Bu_2_out 1 6 9 (dlit 0 1);
  height_near BP_CB_Bu_2_out 1 6 10 (dlit 0 1);
  height_near BP_CB_Bu_2_out 1 6 11 (dlit 0 1);
  height_near BP_CB_Bu_2_out 1 6 12 (dlit 0 1);
  height_near BP_CB_Bu_2_out 1 6 13 (dlit 0 1);
  height_near BP_CB_Bu_2_out 1 6 14 (dlit 0 1);
  height_near BP_CB_Bu_2_out 1 6 15 (dlit 0 1);
  height_near BP_CB_Bu_2_out 1 7 6 (dlit 0 1);
  height_near BP_CB_Bu_2_out 1 7 7 (dlit 0 1);
  height_near BP_CB_Bu_2_out 1 7 8 (dlit 0 1);
  height_near BP_CB_Bu_2_out 1 7 9 (dlit 0 1);
  height_near BP_CB_Bu_2_out 1 7 10 (dlit 0 1);
  height_near BP_CB_Bu_2_out 1 7 11 (dlit 0 1);
  height_near BP_CB_Bu_2_out 1 7 12 (dlit 0 1);
  height_near BP_CB_Bu_2_out 1 7 13 (dlit 0 1);
  height_near BP_CB_Bu_2_out 1 7 14 (dlit 0 1);
  height_near BP_CB_Bu_2_out 1 7 15 (dlit 0 1);
  height_near BP_CB_Bu_2_out 1 8 6 (dlit 0 1);
  height_near BP_CB_Bu_2_out 1 8 7 (dlit 0 1);
  height_near BP_CB_Bu_2_out 1 8 8 (dlit 0 1);
  height_near BP_CB_Bu_2_out 1 8 9 (dlit 0 1);
  height_near BP_CB_Bu_2_out 1 8 10 (dlit 0 1);
  height_near BP_CB_Bu_2_out 1 8 11 (dlit 0 1);
  height_near BP_CB_Bu_2_out 1 8 12 (dlit 0 1);
  height_near BP_CB_Bu_2_out 1 8 13 (dlit 0 1);
  height_near BP_CB_Bu_2_out 1 8 14 (dlit 0 1);
  height_near BP_CB_Bu_2_out 1 8 15 (dlit 0 1);
  height_near BP_CB_Bu_2_out 1 9 6 (dlit 0 1);
  height_near BP_CB_Bu_2_out 1 9 7 (dlit 0 1);
  height_near BP_CB_Bu_2_out 1 9 8 (dlit 0 1);
  height_near BP_CB_Bu_2_out 1 9 9 (dlit 0 1);
  height_near BP_CB_Bu_2_out 1 9 10 (dlit 0 1);
  height_near BP_CB_Bu_2_out 1 9 11 (dlit 0 1);
  height_near BP_CB_Bu_2_out 1 9 12 (dlit 0 1);
  height_near BP_CB_Bu_2_out 1 9 13 (dlit 0 1);
  height_near BP_CB_Bu_2_out 1 9 14 (dlit 0 1);
  height_near BP_CB_Bu_2_out 1 9 15 (dlit 0 1);
  height_near BP_CB_Bu_2_out 1 10 6 (dlit 0 1);
  height_near BP_CB_Bu_2_out 1 10 7 (dlit 0 1);
  height_near BP_CB_Bu_2_out 1 10 8 (dlit 0 1);
  height_near BP_CB_Bu_2_out 1 10 9 (dlit 0 1);
  height_near BP_CB_Bu_2_out 1 10 10 (dlit 0 1);
  height_near BP_CB_Bu_2_out 1 10 11 (dlit 0 1);
  height_near BP_CB_Bu_2_out 1 10 12 (dlit 0 1);
  height_near BP_CB_Bu_2_out 1 10 13 (dlit 0 1);
  height_near BP_CB_Bu_2_out 1 10 14 (dlit 0 1);
  height_near BP_CB_Bu_2_out 1 10 15 (dlit 0 1);
  height_near BP_CB_Bu_2_out 1 11 6 (dlit 0 1);
  height_near BP_CB_Bu_2_out 1 11 7 (dlit 0 1);
  height_near BP_CB_Bu_2_out 1 11 8 (dlit 0 1);
  height_near BP_CB_Bu_2_out 1 11 9 (dlit 0 1);
  height_near BP_CB_Bu_2_out 1 11 10 (dlit 0 1);
  height_near BP_CB_Bu_2_out 1 11 11 (dlit 0 1);
  height_near BP_CB_Bu_2_out 1 11 12 (dlit 0 1);
  height_near BP_CB_Bu_2_out 1 11 13 (dlit 0 1);
  height_near BP_CB_Bu_2_out 1 11 14 (dlit 0 1);
  height_near BP_CB_Bu_2_out 1 11 15 (dlit 0 1);
  height_near BP_CB_Bu_2_out 1 12 6 (dlit 0 1);
  height_near BP_CB_Bu_2_out 1 12 7 (dlit 0 1);
  height_near BP_CB_Bu_2_out 1 12 8 (dlit 0 1);
  height_near BP_CB_Bu_2_out 1 12 9 (dlit 0 1);
  height_near BP_CB_Bu_2_out 1 12 10 (dlit 0 1);
  height_near BP_CB_Bu_2_out 1 12 11 (dlit 0 1);
  height_near BP_CB_Bu_2_out 1 12 12 (dlit 0 1);
  height_near BP_CB_Bu_2_out 1 12 13 (dlit 0 1);
  height_near BP_CB_Bu_2_out 1 12 14 (dlit 0 1);
  height_near BP_CB_Bu_2_out 1 12 15 (dlit 0 1);
  height_near BP_CB_Bu_2_out 1 13 6 (dlit 0 1);
  height_near BP_CB_Bu_2_out 1 13 7 (dlit 0 1);
  height_near BP_CB_Bu_2_out 1 13 8 (dlit 0 1);
  height_near BP_CB_Bu_2_out 1 13 9 (dlit 0 1);
  height_near BP_CB_Bu_2_out 1 13 10 (dlit 0 1);
  height_near BP_CB_Bu_2_out 1 13 11 (dlit 0 1);
  height_near BP_CB_Bu_2_out 1 13 12 (dlit 0 1);
  height_near BP_CB_Bu_2_out 1 13 13 (dlit 0 1);
  height_near BP_CB_Bu_2_out 1 13 14 (dlit 0 1);
  height_near BP_CB_Bu_2_out 1 13 15 (dlit 0 1);
  height_near BP_CB_Bu_2_out 1 14 6 (dlit 0 1);
  height_near BP_CB_Bu_2_out 1 14 7 (dlit 0 1);
  height_near BP_CB_Bu_2_out 1 14 8 (dlit 0 1);
  height_near BP_CB_Bu_2_out 1 14 9 (dlit 0 1);
  height_near BP_CB_Bu_2_out 1 14 10 (dlit 0 1);
  height_near BP_CB_Bu_2_out 1 14 11 (dlit 0 1);
  height_near BP_CB_Bu_2_out 1 14 12 (dlit 0 1);
  height_near BP_CB_Bu_2_out 1 14 13 (dlit 0 1);
  height_near BP_CB_Bu_2_out 1 14 14 (dlit 0 1);
  height_near BP_CB_Bu_2_out 1 14 15 (dlit 0 1);
  height_near BP_CB_Bu_2_out 1 15 6 (dlit 0 1);
  height_near BP_CB_Bu_2_out 1 15 7 (dlit 0 1);
  height_near BP_CB_Bu_2_out 1 15 8 (dlit 0 1);
  height_near BP_CB_Bu_2_out 1 15 9 (dlit 0 1);
  height_near BP_CB_Bu_2_out 1 15 10 (dlit 0 1);
  height_near BP_CB_Bu_2_out 1 15 11 (dlit 0 1);
  height_near BP_CB_Bu_2_out 1 15 12 (dlit 0 1);
  height_near BP_CB_Bu_2_out 1 15 13 (dlit 0 1);
  height_near BP_CB_Bu_2_out 1 15 14 (dlit 0 1);
  height_near BP_CB_Bu_2_out 1 15 15 (dlit 0 1);
  height_near BP_CB_Bu_2_out 1 16 6 (dlit 0 1);
  height_near BP_CB_Bu_2_out 1 16 7 (dlit 0 1);
  height_near BP_CB_Bu_2_out 1 16 8 (dlit 0 1);
  height_near BP_CB_Bu_2_out 1 16 9 (dlit 0 1);
  height_near BP_CB_Bu_2_out 1 16 10 (dlit 0 1);
  height_near BP_CB_Bu_2_out 1 16 11 (dlit 0 1);
  height_near BP_CB_Bu_2_out 1 16 12 (dlit 0 1);
  height_near BP_CB_Bu_2_out 1 16 13 (dlit 0 1);
  height_near BP_CB_Bu_2_out 1 16 14 (dlit 0 1);
  height_near BP_CB_Bu_2_out 1 16 15 (dlit 0 1);
  height_near BP_CB_Bu_2_out 1 17 6 (dlit 0 1);
  height_near BP_CB_Bu_2_out 1 17 7 (dlit 0 1);
  height_near BP_CB_Bu_2_out 1 17 8 (dlit 0 1);
  height_near BP_CB_Bu_2_out 1 17 9 (dlit 0 1);
  height_near BP_CB_Bu_2_out 1 17 10 (dlit 0 1);
  height_near BP_CB_Bu_2_out 1 17 11 (dlit 0 1);
  height_near BP_CB_Bu_2_out 1 17 12 (dlit 0 1);
  height_near BP_CB_Bu_2_out 1 17 13 (dlit 0 1);
  height_near BP_CB_Bu_2_out 1 17 14 (dlit 0 1);
  height_near BP_CB_Bu_2_out 1 17 15 (dlit 0 1);
  height_near BP_CB_Bu_2_out 1 18 6 (dlit 0 1);
  height_near BP_CB_Bu_2_out 1 18 7 (dlit 0 1);
  height_near BP_CB_Bu_2_out 1 18 8 (dlit 0 1);
  height_near BP_CB_Bu_2_out 1 18 9 (dlit 0 1);
  height_near BP_CB_Bu_2_out 1 18 10 (dlit 0 1);
  height_near BP_CB_Bu_2_out 1 18 11 (dlit 0 1);
  height_near BP_CB_Bu_2_out 1 18 12 (dlit 0 1);
  height_near BP_CB_Bu_2_out 1 18 13 (dlit 0 1);
  height_near BP_CB_Bu_2_out 1 18 14 (dlit 0 1);
  height_near BP_CB_Bu_2_out 1 18 15 (dlit 0 1);
  height_near BP_CB_Bu_2_out 1 19 6 (dlit 0 1);
  height_near BP_CB_Bu_2_out 1 19 7 (dlit 0 1);
  height_near BP_CB_Bu_2_out 1 19 8 (dlit 0 1);
  height_near BP_CB_Bu_2_out 1 19 9 (dlit 0 1);
  height_near BP_CB_Bu_2_out 1 19 10 (dlit 0 1);
  height_near BP_CB_Bu_2_out 1 19 11 (dlit 0 1);
  height_near BP_CB_Bu_2_out 1 19 12 (dlit 0 1);
  height_near BP_CB_Bu_2_out 1 19 13 (dlit 0 1);
  height_near BP_CB_Bu_2_out 1 19 14 (dlit 0 1);
  height_near BP_CB_Bu_2_out 1 19 15 (dlit 0 1);
  height_near BP_CB_Bu_2_out 2 6 6 (dlit 0 1);
  height_near BP_CB_Bu_2_out 2 6 7 (dlit 0 1);
  height_near BP_CB_Bu_2_out 2 6 8 (dlit 0 1);
  height_near BP_CB_Bu_2_out 2 6 9 (dlit 0 1);
  height_near BP_CB_Bu_2_out 2 6 10 (dlit 0 1);
  height_near BP_CB_Bu_2_out 2 6 11 (dlit 0 1);
  height_near BP_CB_Bu_2_out 2 6 12 (dlit 0 1);
  height_near BP_CB_Bu_2_out 2 6 13 (dlit 0 1);
  height_near BP_CB_Bu_2_out 2 6 14 (dlit 0 1);
  height_near BP_CB_Bu_2_out 2 6 15 (dlit 0 1);
  height_near BP_CB_Bu_2_out 2 7 6 (dlit 0 1);
  height_near BP_CB_Bu_2_out 2 7 7 (dlit 0 1);
  height_near BP_CB_Bu_2_out 2 7 8 (dlit 0 1);
  height_near BP_CB_Bu_2_out 2 7 9 (dlit 0 1);
  height_near BP_CB_Bu_2_out 2 7 10 (dlit 0 1);
  height_near BP_CB_Bu_2_out 2 7 11 (dlit 0 1);
  height_near BP_CB_Bu_2_out 2 7 12 (dlit 0 1);
  height_near BP_CB_Bu_2_out 2 7 13 (dlit 0 1);
  height_near BP_CB_Bu_2_out 2 7 14 (dlit 0 1);
  height_near BP_CB_Bu_2_out 2 7 15 (dlit 0 1);
  height_near BP_CB_Bu_2_out 2 8 6 (dlit 0 1);
  height_near BP_CB_Bu_2_out 2 8 7 (dlit 0 1);
  height_near BP_CB_Bu_2_out 2 8 8 (dlit 0 1);
  height_near BP_CB_Bu_2_out 2 8 9 (dlit 0 1);
  height_near BP_CB_Bu_2_out 2 8 10 (dlit 0 1);
  height_near BP_CB_Bu_2_out 2 8 11 (dlit 0 1);
  height_near BP_CB_Bu_2_out 2 8 12 (dlit 0 1);
  height_near BP_CB_Bu_2_out 2 8 13 (dlit 0 1);
  height_near BP_CB_Bu_2_out 2 8 14 (dlit 0 1);
  height_near BP_CB_Bu_2_out 2 8 15 (dlit 0 1);
  height_near BP_CB_Bu_2_out 2 9 6 (dlit 0 1);
  height_near BP_CB_Bu_2_out 2 9 7 (dlit 0 1);
  height_near BP_CB_Bu_2_out 2 9 8 (dlit 0 1);
  height_near BP_CB_Bu_2_out 2 9 9 (dlit 0 1);
  height_near BP_CB_Bu_2_out 2 9 10 (dlit 0 1);
  height_near BP_CB_Bu_2_out 2 9 11 (dlit 0 1);
  height_near BP_CB_Bu_2_out 2 9 12 (dlit 0 1);
  height_near BP_CB_Bu_2_out 2 9 13 (dlit 0 1);
  height_near BP_CB_Bu_2_out 2 9 14 (dlit 0 1);
  height_near BP_CB_Bu_2_out 2 9 15 (dlit 0 1);
  height_near BP_CB_Bu_2_out 2 10 6 (dlit 0 1);
  height_near BP_CB_Bu_2_out 2 10 7 (dlit 0 1);
  height_near BP_CB_Bu_2_out 2 10 8 (dlit 0 1);
  height_near BP_CB_Bu_2_out 2 10 9 (dlit 0 1);
  height_near BP_CB_Bu_2_out 2 10 10 (dlit 0 1);
  height_near BP_CB_Bu_2_out 2 10 11 (dlit 0 1);
  height_near BP_CB_Bu_2_out 2 10 12 (dlit 0 1);
  height_near BP_CB_Bu_2_out 2 10 13 (dlit 0 1);
  height_near BP_CB_Bu_2_out 2 10 14 (dlit 0 1);
  height_near BP_CB_Bu_2_out 2 10 15 (dlit 0 1);
  height_near BP_CB_Bu_2_out 2 11 6 (dlit 0 1);
  height_near BP_CB_Bu_2_out 2 11 7 (dlit 0 1);
  height_near BP_CB_Bu_2_out 2 11 8 (dlit 0 1);
  height_near BP_CB_Bu_2_out 2 11 9 (dlit 0 1);
  height_near BP_CB_Bu_2_out 2 11 10 (dlit 0 1);
  height_near BP_CB_Bu_2_out 2 11 11 (dlit 0 1);
  height_near BP_CB_Bu_2_out 2 11 12 (dlit 0 1);
  height_near BP_CB_Bu_2_out 2 11 13 (dlit 0 1);
  height_near BP_CB_Bu_2_out 2 11 14 (dlit 0 1);
  height_near BP_CB_Bu_2_out 2 11 15 (dlit 0 1);
  height_near BP_CB_Bu_2_out 2 12 6 (dlit 0 1);
  height_near BP_CB_Bu_2_out 2 12 7 (dlit 0 1);
  height_near BP_CB_Bu_2_out 2 12 8 (dlit 0 1);
  height_near BP_CB_Bu_2_out 2 12 9 (dlit 0 1);
  height_near BP_CB_Bu_2_out 2 12 10 (dlit 0 1);
  height_near BP_CB_Bu_2_out 2 12 11 (dlit 0 1);
  height_near BP_CB_Bu_2_out 2 12 12 (dlit 0 1);
  height_near BP_CB_Bu_2_out 2 12 13 (dlit 0 1);
  height_near BP_CB_Bu_2_out 2 12 14 (dlit 0 1);
  height_near BP_CB_Bu_2_out 2 12 15 (dlit 0 1);
  height_near BP_CB_Bu_2_out 2 13 6 (dlit 0 1);
  height_near BP_CB_Bu_2_out 2 13 7 (dlit 0 1);
  height_near BP_CB_Bu_2_out 2 13 8 (dlit 0 1);
  height_near BP_CB_Bu_2_out 2 13 9 (dlit 0 1);
  height_near BP_CB_Bu_2_out 2 13 10 (dlit 0 1);
  height_near BP_CB_Bu_2_out 2 13 11 (dlit 0 1);
  height_near BP_CB_Bu_2_out 2 13 12 (dlit 0 1);
  height_near BP_CB_Bu_2_out 2 13 13 (dlit 0 1);
  height_near BP_CB_Bu_2_out 2 13 14 (dlit 0 1);
  height_near BP_CB_Bu_2_out 2 13 15 (dlit 0 1);
  height_near BP_CB_Bu_2_out 2 14 6 (dlit 0 1);
  height_near BP_CB_Bu_2_out 2 14 7 (dlit 0 1);
  height_near BP_CB_Bu_2_out 2 14 8 (dlit 0 1);
  height_near BP_CB_Bu_2_out 2 14 9 (dlit 0 1);
  height_near BP_CB_Bu_2_out 2 14 10 (dlit 0 1);
  height_near BP_CB_Bu_2_out 2 14 11 (dlit 0 1);
  height_near BP_CB_Bu_2_out 2 14 12 (dlit 0 1);
  height_near BP_CB_Bu_2_out 2 14 13 (dlit 0 1);
  height_near BP_CB_Bu_2_out 2 14 14 (dlit 0 1);
  height_near BP_CB_Bu_2_out 2 14 15 (dlit 0 1);
  height_near BP_CB_Bu_2_out 2 15 6 (dlit 0 1);
  height_near BP_CB_Bu_2_out 2 15 7 (dlit 0 1);
  height_near BP_CB_Bu_2_out 2 15 8 (dlit 0 1);
  height_near BP_CB_Bu_2_out 2 15 9 (dlit 0 1);
  height_near BP_CB_Bu_2_out 2 15 10 (dlit 0 1);
  height_near BP_CB_Bu_2_out 2 15 11 (dlit 0 1);
  height_near BP_CB_Bu_2_out 2 15 12 (dlit 0 1);
  height_near BP_CB_Bu_2_out 2 15 13 (dlit 0 1);
  height_near BP_CB_Bu_2_out 2 15 14 (dlit 0 1);
  height_near BP_CB_Bu_2_out 2 15 15 (dlit 0 1);
  height_near BP_CB_Bu_2_out 2 16 6 (dlit 0 1);
  height_near BP_CB_Bu_2_out 2 16 7 (dlit 0 1);
  height_near BP_CB_Bu_2_out 2 16 8 (dlit 0 1);
  height_near BP_CB_Bu_2_out 2 16 9 (dlit 0 1);
  height_near BP_CB_Bu_2_out 2 16 10 (dlit 0 1);
  height_near BP_CB_Bu_2_out 2 16 11 (dlit 0 1);
  height_near BP_CB_Bu_2_out 2 16 12 (dlit 0 1);
  height_near BP_CB_Bu_2_out 2 16 13 (dlit 0 1);
  height_near BP_CB_Bu_2_out 2 16 14 (dlit 0 1);
  height_near BP_CB_Bu_2_out 2 16 15 (dlit 0 1);
  height_near BP_CB_Bu_2_out 2 17 6 (dlit 0 1);
  height_near BP_CB_Bu_2_out 2 17 7 (dlit 0 1);
  height_near BP_CB_Bu_2_out 2 17 8 (dlit 0 1);
  height_near BP_CB_Bu_2_out 2 17 9 (dlit 0 1);
  height_near BP_CB_Bu_2_out 2 17 10 (dlit 0 1);
  height_near BP_CB_Bu_2_out 2 17 11 (dlit 0 1);
  height_near BP_CB_Bu_2_out 2 17 12 (dlit 0 1);
  height_near BP_CB_Bu_2_out 2 17 13 (dlit 0 1);
  height_near BP_CB_Bu_2_out 2 17 14 (dlit 0 1);
  height_near BP_CB_Bu_2_out 2 17 15 (dlit 0 1);
  height_near BP_CB_Bu_2_out 2 18 6 (dlit 0 1);
  height_near BP_CB_Bu_2_out 2 18 7 (dlit 0 1);
  height_near BP_CB_Bu_2_out 2 18 8 (dlit 0 1);
  height_near BP_CB_Bu_2_out 2 18 9 (dlit 0 1);
  height_near BP_CB_Bu_2_out 2 18 10 (dlit 0 1);
  height_near BP_CB_Bu_2_out 2 18 11 (dlit 0 1);
  height_near BP_CB_Bu_2_out 2 18 12 (dlit 0 1);
  height_near BP_CB_Bu_2_out 2 18 13 (dlit 0 1);
  height_near BP_CB_Bu_2_out 2 18 14 (dlit 0 1);
  height_near BP_CB_Bu_2_out 2 18 15 (dlit 0 1);
  height_near BP_CB_Bu_2_out 2 19 6 (dlit 0 1);
  height_near BP_CB_Bu_2_out 2 19 7 (dlit 0 1);
  height_near BP_CB_Bu_2_out 2 19 8 (dlit 0 1);
  height_near BP_CB_Bu_2_out 2 19 9 (dlit 0 1);
  height_near BP_CB_Bu_2_out 2 19 10 (dlit 0 1);
  height_near BP_CB_Bu_2_out 2 19 11 (dlit 0 1);
  height_near BP_CB_Bu_2_out 2 19 12 (dlit 0 1);
  height_near BP_CB_Bu_2_out 2 19 13 (dlit 0 1);
  height_near BP_CB_Bu_2_out 2 19 14 (dlit 0 1);
  height_near BP_CB_Bu_2_out 2 19 15 (dlit 0 1);
  height_near BP_CB_Bu_2_out 3 6 6 (dlit 0 1);
  height_near BP_CB_Bu_2_out 3 6 7 (dlit 0 1);
  height_near BP_CB_Bu_2_out 3 6 8 (dlit 0 1);
  height_near BP_CB_Bu_2_out 3 6 9 (dlit 0 1);
  height_near BP_CB_Bu_2_out 3 6 10 (dlit 0 1);
  height_near BP_CB_Bu_2_out 3 6 11 (dlit 0 1);
  height_near BP_CB_Bu_2_out 3 6 12 (dlit 0 1);
  height_near BP_CB_Bu_2_out 3 6 13 (dlit 0 1);
  height_near BP_CB_Bu_2_out 3 6 14 (dlit 0 1);
  height_near BP_CB_Bu_2_out 3 6 15 (dlit 0 1);
  height_near BP_CB_Bu_2_out 3 7 6 (dlit 0 1);
  height_near BP_CB_Bu_2_out 3 7 7 (dlit 0 1);
  height_near BP_CB_Bu_2_out 3 7 8 (dlit 0 1);
  height_near BP_CB_Bu_2_out 3 7 9 (dlit 0 1);
  height_near BP_CB_Bu_2_out 3 7 10 (dlit 0 1);
  height_near BP_CB_Bu_2_out 3 7 11 (dlit 0 1);
  height_near BP_CB_Bu_2_out 3 7 12 (dlit 0 1);
  height_near BP_CB_Bu_2_out 3 7 13 (dlit 0 1);
  height_near BP_CB_Bu_2_out 3 7 14 (dlit 0 1);
  height_near BP_CB_Bu_2_out 3 7 15 (dlit 0 1);
  height_near BP_CB_Bu_2_out 3 8 6 (dlit 0 1);
  height_near BP_CB_Bu_2_out 3 8 7 (dlit 0 1);
  height_near BP_CB_Bu_2_out 3 8 8 (dlit 0 1);
  height_near BP_CB_Bu_2_out 3 8 9 (dlit 0 1);
  height_near BP_CB_Bu_2_out 3 8 10 (dlit 0 1);
  height_near BP_CB_Bu_2_out 3 8 11 (dlit 0 1);
  height_near BP_CB_Bu_2_out 3 8 12 (dlit 0 1);
  height_near BP_CB_Bu_2_out 3 8 13 (dlit 0 1);
  height_near BP_CB_Bu_2_out 3 8 14 (dlit 0 1);
  height_near BP_CB_Bu_2_out 3 8 15 (dlit 0 1);
  height_near BP_CB_Bu_2_out 3 9 6 (dlit 0 1);
  height_near BP_CB_Bu_2_out 3 9 7 (dlit 0 1);
  height_near BP_CB_Bu_2_out 3 9 8 (dlit 0 1);
  height_near BP_CB_Bu_2_out 3 9 9 (dlit 0 1);
  height_near BP_CB_Bu_2_out 3 9 10 (dlit 0 1);
  height_near BP_CB_Bu_2_out 3 9 11 (dlit 0 1);
  height_near BP_CB_Bu_2_out 3 9 12 (dlit 0 1);
  height_near BP_CB_Bu_2_out 3 9 13 (dlit 0 1);
  height_near BP_CB_Bu_2_out 3 9 14 (dlit 0 1);
  height_near BP_CB_Bu_2_out 3 9 15 (dlit 0 1);
  height_near BP_CB_Bu_2_out 3 10 6 (dlit 0 1);
  height_near BP_CB_Bu_2_out 3 10 7 (dlit 0 1);
  height_near BP_CB_Bu_2_out 3 10 8 (dlit 0 1);
  height_near BP_CB_Bu_2_out 3 10 9 (dlit 0 1);
  height_near BP_CB_Bu_2_out 3 10 10 (dlit 0 1);
  height_near BP_CB_Bu_2_out 3 10 11 (dlit 0 1);
  height_near BP_CB_Bu_2_out 3 10 12 (dlit 0 1);
  height_near BP_CB_Bu_2_out 3 10 13 (dlit 0 1);
  height_near BP_CB_Bu_2_out 3 10 14 (dlit 0 1);
  height_near BP_CB_Bu_2_out 3 10 15 (dlit 0 1);
  height_near BP_CB_Bu_2_out 3 11 6 (dlit 0 1);
  height_near BP_CB_Bu_2_out 3 11 7 (dlit 0 1);
  height_near BP_CB_Bu_2_out 3 11 8 (dlit 0 1);
  height_near BP_CB_Bu_2_out 3 11 9 (dlit 0 1);
  height_near BP_CB_Bu_2_out 3 11 10 (dlit 0 1);
  height_near BP_CB_Bu_2_out 3 11 11 (dlit 0 1);
  height_near BP_CB_Bu_2_out 3 11 12 (dlit 0 1);
  height_near BP_CB_Bu_2_out 3 11 13 (dlit 0 1);
  height_near BP_CB_Bu_2_out 3 11 14 (dlit 0 1);
  height_near BP_CB_Bu_2_out 3 11 15 (dlit 0 1);
  height_near BP_CB_Bu_2_out 3 12 6 (dlit 0 1);
  height_near BP_CB_Bu_2_out 3 12 7 (dlit 0 1);
  height_near BP_CB_Bu_2_out 3 12 8 (dlit 0 1);
  height_near BP_CB_Bu_2_out 3 12 9 (dlit 0 1);
  height_near BP_CB_Bu_2_out 3 12 10 (dlit 0 1);
  height_near BP_CB_Bu_2_out 3 12 11 (dlit 0 1);
  height_near BP_CB_Bu_2_out 3 12 12 (dlit 0 1);
  height_near BP_CB_Bu_2_out 3 12 13 (dlit 0 1);
  height_near BP_CB_Bu_2_out 3 12 14 (dlit 0 1);
  height_near BP_CB_Bu_2_out 3 12 15 (dlit 0 1);
  height_near BP_CB_Bu_2_out 3 13 6 (dlit 0 1);
  height_near BP_CB_Bu_2_out 3 13 7 (dlit 0 1);
  height_near BP_CB_Bu_2_out 3 13 8 (dlit 0 1);
  height_near BP_CB_Bu_2_out 3 13 9 (dlit 0 1);
  height_near BP_CB_Bu_2_out 3 13 10 (dlit 0 1);
  height_near BP_CB_Bu_2_out 3 13 11 (dlit 0 1);
  height_near BP_CB_Bu_2_out 3 13 12 (dlit 0 1);
  height_near BP_CB_Bu_2_out 3 13 13 (dlit 0 1);
  height_near BP_CB_Bu_2_out 3 13 14 (dlit 0 1);
  height_near BP_CB_Bu_2_out 3 13 15 (dlit 0 1);
  height_near BP_CB_Bu_2_out 3 14 6 (dlit 0 1);
  height_near BP_CB_Bu_2_out 3 14 7 (dlit 0 1);
  height_near BP_CB_Bu_2_out 3 14 8 (dlit 0 1);
  height_near BP_CB_Bu_2_out 3 14 9 (dlit 0 1);
  height_near BP_CB_Bu_2_out 3 14 10 (dlit 0 1);
  height_near BP_CB_Bu_2_out 3 14 11 (dlit 0 1);
  height_near BP_CB_Bu_2_out 3 14 12 (dlit 0 1);
  height_near BP_CB_Bu_2_out 3 14 13 (dlit 0 1);
  height_near BP_CB_Bu_2_out 3 14 14 (dlit 0 1);
  height_near BP_CB_Bu_2_out 3 14 15 (dlit 0 1);
  height_near BP_CB_Bu_2_out 3 15 6 (dlit 0 1);
  height_near BP_CB_Bu_2_out 3 15 7 (dlit 0 1);
  height_near BP_CB_Bu_2_out 3 15 8 (dlit 0 1);
  height_near BP_CB_Bu_2_out 3 15 9 (dlit 0 1);
  height_near BP_CB_Bu_2_out 3 15 10 (dlit 0 1);
  height_near BP_CB_Bu_2_out 3 15 11 (dlit 0 1);
  height_near BP_CB_Bu_2_out 3 15 12 (dlit 0 1);
  height_near BP_CB_Bu_2_out 3 15 13 (dlit 0 1);
  height_near BP_CB_Bu_2_out 3 15 14 (dlit 0 1);
  height_near BP_CB_Bu_2_out 3 15 15 (dlit 0 1);
  height_near BP_CB_Bu_2_out 3 16 6 (dlit 0 1);
  height_near BP_CB_Bu_2_out 3 16 7 (dlit 0 1);
  height_near BP_CB_Bu_2_out 3 16 8 (dlit 0 1);
  height_near BP_CB_Bu_2_out 3 16 9 (dlit 0 1);
  height_near BP_CB_Bu_2_out 3 16 10 (dlit 0 1);
  height_near BP_CB_Bu_2_out 3 16 11 (dlit 0 1);
  height_near BP_CB_Bu_2_out 3 16 12 (dlit 0 1);
  height_near BP_CB_Bu_2_out 3 16 13 (dlit 0 1);
  height_near BP_CB_Bu_2_out 3 16 14 (dlit 0 1);
  height_near BP_CB_Bu_2_out 3 16 15 (dlit 0 1);
  height_near BP_CB_Bu_2_out 3 17 6 (dlit 0 1);
  height_near BP_CB_Bu_2_out 3 17 7 (dlit 0 1);
  height_near BP_CB_Bu_2_out 3 17 8 (dlit 0 1);
  height_near BP_CB_Bu_2_out 3 17 9 (dlit 0 1);
  height_near BP_CB_Bu_2_out 3 17 10 (dlit 0 1);
  height_near BP_CB_Bu_2_out 3 17 11 (dlit 0 1);
  height_near BP_CB_Bu_2_out 3 17 12 (dlit 0 1);
  height_near BP_CB_Bu_2_out 3 17 13 (dlit 0 1);
  height_near BP_CB_Bu_2_out 3 17 14 (dlit 0 1);
  height_near BP_CB_Bu_2_out 3 17 15 (dlit 0 1);
  height_near BP_CB_Bu_2_out 3 18 6 (dlit 0 1);
  height_near BP_CB_Bu_2_out 3 18 7 (dlit 0 1);
  height_near BP_CB_Bu_2_out 3 18 8 (dlit 0 1);
  height_near BP_CB_Bu_2_out 3 18 9 (dlit 0 1);
  height_near BP_CB_Bu_2_out 3 18 10 (dlit 0 1);
  height_near BP_CB_Bu_2_out 3 18 11 (dlit 0 1);
  height_near BP_CB_Bu_2_out 3 18 12 (dlit 0 1);
  height_near BP_CB_Bu_2_out 3 18 13 (dlit 0 1);
  height_near BP_CB_Bu_2_out 3 18 14 (dlit 0 1);
  height_near BP_CB_Bu_2_out 3 18 15 (dlit 0 1);
  height_near BP_CB_Bu_2_out 3 19 6 (dlit 0 1);
  height_near BP_CB_Bu_2_out 3 19 7 (dlit 0 1);
  height_near BP_CB_Bu_2_out 3 19 8 (dlit 0 1);
  height_near BP_CB_Bu_2_out 3 19 9 (dlit 0 1);
  height_near BP_CB_Bu_2_out 3 19 10 (dlit 0 1);
  height_near BP_CB_Bu_2_out 3 19 11 (dlit 0 1);
  height_near BP_CB_Bu_2_out 3 19 12 (dlit 0 1);
  height_near BP_CB_Bu_2_out 3 19 13 (dlit 0 1);
  height_near BP_CB_Bu_2_out 3 19 14 (dlit 0 1);
  height_near BP_CB_Bu_2_out 3 19 15 (dlit 0 1);
  only_there BP_CB_Bu_2_out
    [(0, 10, 8); (0, 10, 9); (0, 10, 10); (0, 10, 11); (0, 10, 12); (0, 11, 8); (0, 11, 9); (0, 11, 10); (0, 11, 11); (0, 11, 12); (0, 12, 8); (0, 12, 9); (0, 12, 10); (0, 12, 11); (0, 12, 12); (0, 13, 8); (0, 13, 9); (0, 13, 10); (0, 13, 11); (0, 13, 12); (0, 14, 8); (0, 14, 9); (0, 14, 10); (0, 14, 11); (0, 14, 12); (0, 15, 8); (0, 15, 9); (0, 15, 10); (0, 15, 11); (0, 15, 12)]].
Example BP_CB_Bu_2_pass : forallb id BP_CB_Bu_2 = true.
Proof. vm_cast_no_check (@eq_refl bool true). Qed.

Definition BP_CB_Bu_3_out := Eval vm_compute in
  heights (placed_body ABucket
    [(slit 0 1); (slit 0 1); (slit 0 1)] [(slit 0 1); (slit 0 1); (slit 0 1)] [(slit 0 1); (slit 0 1); (slit (-5) 1)] [(slit 5 1); (slit 0 1); (slit (-5) 1)] (slit 5 1)
    (mkVec (slit 0 1) (slit 0 1) (slit (-1) 1)) (mkQuat (slit 707107 6) (slit 0 1) (slit (-707107) 6) (slit 0 1))).

Definition BP_CB_Bu_3 : list bool := [
  area_is BP_CB_Bu_3_out (mkArea 1 14 4 16);
  height_near BP_CB_Bu_3_out 1 5 8 (dlit (-1) 1);
  height_near BP_CB_Bu_3_out 1 5 9 (dlit (-1) 1);
  height_near BP_CB_Bu_3_out 1 5 10 (dlit (-1) 1);
  height_near BP_CB_Bu_3_out 1 5 11 (dlit (-1) 1);
  height_near BP_CB_Bu_3_out 1 5 12 (dlit (-1) 1);
  height_near BP_CB_Bu_3_out 1 6 8 (dlit (-1) 1);
  height_near BP_CB_Bu_3_out 1 6 9 (dlit (-1) 1);
  height_near BP_CB_Bu_3_out 1 6 10 (dlit (-1) 1);
  height_near BP_CB_Bu_3_out 1 6 11 (dlit (-1) 1);
  height_near BP_CB_Bu_3_out 1 6 12 (dlit (-1) 1);
  height_near BP_CB_Bu_3_out 1 7 8 (dlit (-1) 1);
  height_near BP_CB_Bu_3_out 1 7 9 (dlit (-1) 1);
  height_near BP_CB_Bu_3_out 1 7 10 (dlit (-1) 1);
  height_near BP_CB_Bu_3_out 1 7 11 (dlit (-1) 1);
  height_near BP_CB_Bu_3_out 1 7 12 (dlit (-1) 1);
  height_near BP_CB_Bu_3_out 1 8 8 (dlit (-1) 1);
  height_near BP_CB_Bu_3_out 1 8 9 (dlit (-1) 1);
  height_near BP_CB_Bu_3_out 1 8 10 (dlit (-1) 1);
  height_near BP_CB_Bu_3_out 1 8 11 (dlit (-1) 1);
  height_near BP_CB_Bu_3_out 1 8 12 (dlit (-1) 1);
  height_near BP_CB_Bu_3_out 1 9 8 (dlit (-1) 1);
  height_near BP_CB_Bu_3_out 1 9 9 (dlit (-1) 1);
  height_near BP_CB_Bu_3_out 1 9 10 (dlit (-1) 1);
  height_near BP_CB_Bu_3_out 1 9 11 (dlit (-1) 1);
  height_near BP_CB_Bu_3_out 1 9 12 (dlit (-1) 1);
  height_near BP_CB_Bu_3_out 1 10 8 (dlit (-1) 1);
  height_near BP_CB_Bu_3_out 1 10 9 (dlit (-1) 1);
  height_near BP_CB_Bu_3_out 1 10 10 (dlit (-1) 1);
  height_near BP_CB_Bu_3_out 1 10 11 (dlit (-1) 1);
  height_near BP_CB_Bu_3_out 1 10 12 (dlit (-1) 1);
  height_near BP_CB_Bu_3_out 0 5 8 (dlit (-6) 1);
  height_near BP_CB_Bu_3_out 0 10 8 (dlit (-2) 1);
  height_near BP_CB_Bu_3_out 0 5 9 (dlit (-6) 1);
  height_near BP_CB_Bu_3_out 0 10 9 (dlit (-2) 1);
  height_near BP_CB_Bu_3_out 0 5 10 (dlit (-6) 1);
  height_near BP_CB_Bu_3_out 0 10 10 (dlit (-2) 1);
  height_near BP_CB_Bu_3_out 0 5 11 (dlit (-6) 1);
  height_near BP_CB_Bu_3_out 0 10 11 (dlit (-2) 1);
  height_near BP_CB_Bu_3_out 0 5 12 (dlit (-6) 1);
  height_near BP_CB_Bu_3_out 0 10 12 (dlit (-2) 1);
  height_near BP_CB_Bu_3_out 0 6 9 (dlit (-2) 1);
  height_near BP_CB_Bu_3_out 0 6 8 (dlit (-6) 1);
  height_near BP_CB_Bu_3_out 0 6 12 (dlit (-6) 1);
  height_near BP_CB_Bu_3_out 0 7 8 (dlit (-5) 1);
  height_near BP_CB_Bu_3_out 0 7 12 (dlit (-5) 1);
  height_near BP_CB_Bu_3_out 0 8 8 (dlit (-4) 1);
  height_near BP_CB_Bu_3_out 0 8 12 (dlit (-4) 1);
  height_near BP_CB_Bu_3_out 0 9 8 (dlit (-3) 1);
  height_near BP_CB_Bu_3_out 0 9 12 (dlit (-3) 1);
  height_near BP_CB_Bu_3_out 0 6 10 (dlit (-2) 1);
  height_near BP_CB_Bu_3_out 0 6 8 (dlit (-6) 1);
  height_near BP_CB_Bu_3_out 0 6 12 (dlit (-6) 1);
  height_near BP_CB_Bu_3_out 0 7 8 (dlit (-5) 1);
  height_near BP_CB_Bu_3_out 0 7 12 (dlit (-5) 1);
  height_near BP_CB_Bu_3_out 0 8 8 (dlit (-4) 1);
  height_near BP_CB_Bu_3_out 0 8 12 (dlit (-4) 1);
  height_near BP_CB_Bu_3_out 0 9 8 (dlit (-3) 1);
  height_near BP_CB_Bu_3_out 0 9 12 (dlit (-3) 1);
  height_near BP_CB_Bu_3_out 0 6 11 (dlit (-2) 1);
  height_near BP_CB_Bu_3_out 0 6 8 (dlit (-6) 1);
  height_near BP_CB_Bu_3_out 0 6 12 (dlit (-6) 1);
  height_near BP_CB_Bu_3_out 0 7 8 (dlit (-5) 1);
  height_near BP_CB_Bu_3_out 0 7 12 (dlit (-5) 1);
  height_near BP_CB_Bu_3_out 0 8 8 (dlit (-4) 1);
  height_near BP_CB_Bu_3_out 0 8 12 (dlit (-4) 1);
  height_near BP_CB_Bu_3_out 0 9 8 (dlit (-3) 1);
  height_near BP_CB_Bu_3_out 0 9 12 (dlit (-3) 1);
  height_near BP_CB_Bu_3_out 0 7 9 (dlit (-2) 1);
  height_near BP_CB_Bu_3_out 0 6 8 (dlit (-6) 1);
  height_near BP_CB_Bu_3_out 0 6 12 (dlit (-6) 1);
  height_near BP_CB_Bu_3_out 0 7 8 (dlit (-5) 1);
  height_near BP_CB_Bu_3_out 0 7 12 (dlit (-5) 1);
  height_near BP_CB_Bu_3_out 0 8 8 (dlit (-4) 1);
  height_near BP_CB_Bu_3_out 0 8 12 (dlit (-4) 1);
  height_near BP_CB_Bu_3_out 0 9 8 (dlit (-3) 1);
  height_near BP_CB_Bu_3_out 0 9 12 (dlit (-3) 1);
  height_near BP_CB_Bu_3_out 0 7 10 (dlit (-2) 1);
  height_near BP_CB_Bu_3_out 0 6 8 (dlit (-6) 1);
  height_near BP_CB_Bu_3_out 0 6 12 (dlit (-6) 1);
  height_near BP_CB_Bu_3_out 0 7 8 (dlit (-5) 1);
  height_near BP_CB_Bu_3_out 0 7 12 (dlit (-5) 1);
  height_near BP_CB_Bu_3_out 0 8 8 (dlit (-4) 1);
  height_near BP_CB_Bu_3_out 0 8 12 (dlit (-4) 1);
  height_near BP_CB_Bu_3_out 0 9 8 (dlit (-3) 1);
  height_near BP_CB_Bu_3_out 0 9 12 (dlit (-3) 1);
  height_near BP_CB_Bu_3_out 0 7 11 (dlit (-2) 1);
  height_near BP_CB_Bu_3_out 0 6 8 (dlit (-6) 1);
  height_near BP_CB_Bu_3_out 0 6 12 (dlit (-6) 1);
  height_near BP_CB_Bu_3_out 0 7 8 (dlit (-5) 1);
  height_near BP_CB_Bu_3_out 0 7 12 (dlit (-5) 1);
  height_near BP_CB_Bu_3_out 0 8 8 (dlit (-4) 1);
  height_near BP_CB_Bu_3_out 0 8 12 (dlit (-4) 1);
  height_near BP_CB_Bu_3_out 0 9 8 (dlit (-3) 1);
  height_near BP_CB_Bu_3_out 0 9 12 (dlit (-3) 1);
  height_near BP_CB_Bu_3_out 0 8 9 (dlit (-2) 1);
  height_near BP_CB_Bu_3_out 0 6 8 (dlit (-6) 1);
  height_near BP_CB_Bu_3_out 0 6 12 (dlit (-6) 1);
  height_near BP_CB_Bu_3_out 0 7 8 (dlit (-5) 1);
  height_near BP_CB_Bu_3_out 0 7 12 (dlit (-5) 1);
  height_near BP_CB_Bu_3_out 0 8 8 (dlit (-4) 1);
  height_near BP_CB_Bu_3_out 0 8 12 (dlit (-4) 1);
  height_near BP_CB_Bu_3_out 0 9 8 (dlit (-3) 1);
  height_near BP_CB_Bu_3_out 0 9 12 (dlit (-3) 1);
  height_near BP_CB_Bu_3_out 0 8 10 (dlit (-2) 1);
  height_near BP_CB_Bu_3_out 0 6 8 (dlit (-6) 1);
  height_near BP_CB_Bu_3_out 0 6 12 (dlit (-6) 1);
  height_near BP_CB_Bu_3_out 0 7 8 (dlit (-5) 1);
  height_near BP_CB_Bu_3_out 0 7 12 (dlit (-5) 1);
  height_near BP_CB_Bu_3_out 0 8 8 (dlit (-4) 1);
  height_near BP_CB_Bu_3_out 0 8 12 (dlit (-4) 1);
  height_near BP_CB_Bu_3_out 0 9 8 (dlit (-3) 1);
  height_near BP_CB_Bu_3_out 0 9 12 (dlit (-3) 1);
  height_near BP_CB_Bu_3_out 0 8 11 (dlit (-2) 1);
  height_near BP_CB_Bu_3_out 0 6 8 (dlit (-6) 1);
  height_near BP_CB_Bu_3_out 0 6 12 (dlit (-6) 1);
  height_near BP_CB_Bu_3_out 0 7 8 (dlit (-5) 1);
  height_near BP_CB_Bu_3_out 0 7 12 (dlit (-5) 1);
  height_near BP_CB_Bu_3_out 0 8 8 (dlit (-4) 1);
  height_near BP_CB_Bu_3_out 0 8 12 (dlit (-4) 1);
  height_near BP_CB_Bu_3_out 0 9 8 (dlit (-3) 1);
  height_near BP_CB_Bu_3_out 0 9 12 (dlit (-3) 1);
  height_near BP_CB_Bu_3_out 0 9 9 (dlit (-2) 1);
  height_near BP_CB_Bu_3_out 0 6 8 (dlit (-6) 1);
  height_near BP_CB_Bu_3_out 0 6 12 (dlit (-6) 1);
  height_near BP_CB_Bu_3_out 0 7 8 (dlit (-5) 1);
  height_near BP_CB_Bu_3_out 0 7 12 (dlit (-5) 1);
  height_near BP_CB_Bu_3_out 0 8 8 (dlit (-4) 1);
  height_near BP_CB_Bu_3_out 0 8 12 (dlit (-4) 1);
  height_near BP_CB_Bu_3_out 0 9 8 (dlit (-3) 1);
  height_near BP_CB_Bu_3_out 0 9 12 (dlit (-3) 1);
  height_near BP_CB_Bu_3_out 0 9 10 (dlit (-2) 1);
  height_near BP_CB_Bu_3_out 0 6 8 (dlit (-6) 1);
  height_near BP_CB_Bu_3_out 0 6 12 (dlit (-6) 1);
  height_near BP_CB_Bu_3_out 0 7 8 (dlit (-5) 1);
  height_near BP_CB_Bu_3_out 0 7 12 (dlit (-5) 1);
  height_near BP_CB_Bu_3_out 0 8 8 (dlit (-4) 1);
  height_near BP_CB_Bu_3_out 0 8 12 (dlit (-4) 1);
  height_near BP_CB_Bu_3_out 0 9 8 (dlit (-3) 1);
  height_near BP_CB_Bu_3_out 0 9 12 (dlit (-3) 1);
  height_near BP_CB_Bu_3_out 0 9 11 (dlit (-2) 1);
  height_near BP_CB_Bu_3_out 0 6 8 (dlit (-6) 1);
  height_near BP_CB_Bu_3_out 0 6 12 (dlit (-6) 1);
  height_near BP_CB_Bu_3_out 0 7 8 (dlit (-5) 1);
  height_near BP_CB_Bu_3_out 0 7 12 (dlit (-5) 1);
  height_near BP_CB_Bu_3_out 0 8 8 (dlit (-4) 1);
  height_near BP_CB_Bu_3_out 0 8 12 (dlit (-4) 1);
  height_near BP_CB_Bu_3_out 0 9 8 (dlit (-3) 1);
  height_near BP_CB_Bu_3_out 0 9 12 (dlit (-3) 1);
  only_there BP_CB_Bu_3_out
    [(0, 5, 8); (0, 5, 9); (0, 5, 10); (0, 5, 11); (0, 5, 12); (0, 6, 8); (0, 6, 9); (0, 6, 10); (0, 6, 11); (0, 6, 12); (0, 7, 8); (0, 7, 9); (0, 7, 10); (0, 7, 11); (0, 7, 12); (0, 8, 8); (0, 8, 9); (0, 8, 10); (0, 8, 11); (0, 8, 12); (0, 9, 8); (0, 9, 9); (0, 9, 10); (0, 9, 11); (0, 9, 12); (0, 10, 8); (0, 10, 9); (0, 10, 10); (0, 10, 11); (0, 10, 12)]].
Example BP_CB_Bu_3_pass : forallb id BP_CB_Bu_3 = true.
Proof. vm_cast_no_check (@eq_refl bool true). Qed.

Definition BP_CB_Bl_1_out := Eval vm_compute in
  heights (placed_body ABlade
    [(slit 0 1); (slit 0 1); (slit 0 1)] [(slit 0 1); (slit 0 1); (slit 0 1)] [(slit 0 1); (slit 0 1); (slit 1 1)] [(slit 1 2); (slit 0 1); (slit (-1) 1)] (slit 4 1)
    (mkVec (slit 0 1) (slit 0 1) (slit 0 1)) (mkQuat (slit 10 1) (slit 0 1) (slit 0 1) (slit 0 1))).

Definition BP_CB_Bl_1 : list bool := [
  area_is BP_CB_Bl_1_out (mkArea 5 14 4 16);
  height_near BP_CB_Bl_1_out 0 9 8 (dlit (-1) 1);
  height_near BP_CB_Bl_1_out 1 9 8 (dlit 1 1);
  height_near BP_CB_Bl_1_out 0 9 9 (dlit (-1) 1);
  height_near BP_CB_Bl_1_out 1 9 9 (dlit 1 1);
  height_near BP_CB_Bl_1_out 0 9 10 (dlit (-1) 1);
  height_near BP_CB_Bl_1_out 1 9 10 (dlit 1 1);
  height_near BP_CB_Bl_1_out 0 9 11 (dlit (-1) 1);
  height_near BP_CB_Bl_1_out 1 9 11 (dlit 1 1);
  height_near BP_CB_Bl_1_out 0 9 12 (dlit (-1) 1);
  height_near BP_CB_Bl_1_out 1 9 12 (dlit 1 1);
  height_near BP_CB_Bl_1_out 0 10 8 (dlit (-1) 1);
  height_near BP_CB_Bl_1_out 1 10 8 (dlit 1 1);
  height_near BP_CB_Bl_1_out 0 10 9 (dlit (-1) 1);
  height_near BP_CB_Bl_1_out 1 10 9 (dlit 1 1);
  height_near BP_CB_Bl_1_out 0 10 10 (dlit (-1) 1);
  height_near BP_CB_Bl_1_out 1 10 10 (dlit 1 1);
  height_near BP_CB_Bl_1_out 0 10 11 (dlit (-1) 1);
  height_near BP_CB_Bl_1_out 1 10 11 (dlit 1 1);
  height_near BP_CB_Bl_1_out 0 10 12 (dlit (-1) 1);
  height_near BP_CB_Bl_1_out 1 10 12 (dlit 1 1);
  only_there BP_CB_Bl_1_out
    [(0, 9, 8); (0, 9, 9); (0, 9, 10); (0, 9, 11); (0, 9, 12); (0, 10, 8); (0, 10, 9); (0, 10, 10); (0, 10, 11); (0, 10, 12)]].
Example BP_CB_Bl_1_pass : forallb id BP_CB_Bl_1 = true.
Proof. vm_cast_no_check (@eq_refl bool true). Qed.

Definition BP_CB_Bl_2_out := Eval vm_compute in
  heights (placed_body ABlade
    [(slit 0 1); (slit 0 1); (slit 0 1)] [(slit 0 1); (slit 0 1); (slit 0 1)] [(slit 0 1); (slit 0 1); (slit 1 1)] [(slit 0 1); (slit 1 2); (slit (-1) 1)] (slit 4 1)
    (mkVec (slit 0 1) (slit 0 1) (slit 0 1)) (mkQuat (slit 10 1) (slit 0 1) (slit 0 1) (slit 0 1))).

Definition BP_CB_Bl_2 : list bool := [
  area_is BP_CB_Bl_2_out (mkArea 4 16 5 14);
  height_near BP_CB_Bl_2_out 0 8 9 (dlit (-1) 1);
  height_near BP_CB_Bl_2_out 1 8 9 (dlit 1 1);
  height_near BP_CB_Bl_2_out 0 9 9 (dlit (-1) 1);
  height_near BP_CB_Bl_2_out 1 9 9 (dlit 1 1);
  height_near BP_CB_Bl_2_out 0 10 9 (dlit (-1) 1);
  height_near BP_CB_Bl_2_out 1 10 9 (dlit 1 1);
  height_near BP_CB_Bl_2_out 0 11 9 (dlit (-1) 1);
  height_near BP_CB_Bl_2_out 1 11 9 (dlit 1 1);
  height_near BP_CB_Bl_2_out 0 12 9 (dlit (-1) 1);
  height_near BP_CB_Bl_2_out 1 12 9 (dlit 1 1);
  height_near BP_CB_Bl_2_out 0 8 10 (dlit (-1) 1);
  height_near BP_CB_Bl_2_out 1 8 10 (dlit 1 1);
  height_near BP_CB_Bl_2_out 0 9 10 (dlit (-1) 1);
  height_near BP_CB_Bl_2_out 1 9 10 (dlit 1 1);
  height_near BP_CB_Bl_2_out 0 10 10 (dlit (-1) 1);
  height_near BP_CB_Bl_2_out 1 10 10 (dlit 1 1);
  height_near BP_CB_Bl_2_out 0 11 10 (dlit (-1) 1);
  height_near BP_CB_Bl_2_out 1 11 10 (dlit 1 1);
  height_near BP_CB_Bl_2_out 0 12 10 (dlit (-1) 1);
  height_near BP_CB_Bl_2_out 1 12 10 (dlit 1 1);
  only_there BP_CB_Bl_2_out
    [(0, 8, 9); (0, 9, 9); (0, 10, 9); (0, 11, 9); (0, 12, 9); (0, 8, 10); (0, 9, 10); (0, 10, 10); (0, 11, 10); (0, 12, 10)]].
Example BP_CB_Bl_2_pass : forallb id BP_CB_Bl_2 = true.
Proof. vm_cast_no_check (@eq_refl bool true). Qed.

Definition BP_CB_Bl_3_out := Eval vm_compute in
  heights (placed_body ABlade
    [(slit 0 1); (slit 0 1); (slit 0 1)] [(slit 0 1); (slit 0 1); (slit 0 1)] [(slit 1 1); (slit 0 1); (slit 0 1)] [(slit (-1) 1); (slit 0 1); (slit 1 2)] (slit 4 1)
    (mkVec (slit 0 1) (slit 0 1) (slit 0 1)) (mkQuat (slit 10 1) (slit 0 1) (slit 0 1) (slit 0 1))).

Definition BP_CB_Bl_3 : list bool := [
  area_is BP_CB_Bl_3_out (mkArea 5 15 4 16);
  height_near BP_CB_Bl_3_out 0 9 8 (dlit (-1) 1);
  height_near BP_CB_Bl_3_out 1 9 8 (dlit 1 1);
  height_near BP_CB_Bl_3_out 0 9 9 (dlit (-1) 1);
  height_near BP_CB_Bl_3_out 1 9 9 (dlit 1 1);
  height_near BP_CB_Bl_3_out 0 9 10 (dlit (-1) 1);
  height_near BP_CB_Bl_3_out 1 9 10 (dlit 1 1);
  height_near BP_CB_Bl_3_out 0 9 11 (dlit (-1) 1);
  height_near BP_CB_Bl_3_out 1 9 11 (dlit 1 1);
  height_near BP_CB_Bl_3_out 0 9 12 (dlit (-1) 1);
  height_near BP_CB_Bl_3_out 1 9 12 (dlit 1 1);
  height_near BP_CB_Bl_3_out 0 10 8 (dlit (-1) 1);
  height_near BP_CB_Bl_3_out 1 10 8 (dlit 1 1);
  height_near BP_CB_Bl_3_out 0 10 9 (dlit (-1) 1);
  height_near BP_CB_Bl_3_out 1 10 9 (dlit 1 1);
  height_near BP_CB_Bl_3_out 0 10 10 (dlit (-1) 1);
  height_near BP_CB_Bl_3_out 1 10 10 (dlit 1 1);
  height_near BP_CB_Bl_3_out 0 10 11 (dlit (-1) 1);
  height_near BP_CB_Bl_3_out 1 10 11 (dlit 1 1);
  height_near BP_CB_Bl_3_out 0 10 12 (dlit (-1) 1);
  height_near BP_CB_Bl_3_out 1 10 12 (dlit 1 1);
  height_near BP_CB_Bl_3_out 0 11 8 (dlit (-1) 1);
  height_near BP_CB_Bl_3_out 1 11 8 (dlit 1 1);
  height_near BP_CB_Bl_3_out 0 11 9 (dlit (-1) 1);
  height_near BP_CB_Bl_3_out 1 11 9 (dlit 1 1);
  height_near BP_CB_Bl_3_out 0 11 10 (dlit (-1) 1);
  height_near BP_CB_Bl_3_out 1 11 10 (dlit 1 1);
  height_near BP_CB_Bl_3_out 0 11 11 (dlit (-1) 1);
  height_near BP_CB_Bl_3_out 1 11 11 (dlit 1 1);
  height_near BP_CB_Bl_3_out 0 11 12 (dlit (-1) 1);
  height_near BP_CB_Bl_3_out 1 11 12 (dlit 1 1);
  only_there BP_CB_Bl_3_out
    [(0, 9, 8); (0, 9, 9); (0, 9, 10); (0, 9, 11); (0, 9, 12); (0, 10, 8); (0, 10, 9); (0, 10, 10); (0, 10, 11); (0, 10, 12); (0, 11, 8); (0, 11, 9); (0, 11, 10); (0, 11, 11); (0, 11, 12)]].
Example BP_CB_Bl_3_pass : forallb id BP_CB_Bl_3 = true.
Proof. vm_cast_no_check (@eq_refl bool true). Qed.

Definition BP_CB_Bl_4_out := Eval vm_compute in
  heights (placed_body ABlade
    [(slit 0 1); (slit 0 1); (slit 0 1)] [(slit 0 1); (slit 0 1); (slit 0 1)] [(slit 0 1); (slit 0 1); (slit 2 1)] [(slit 15 2); (slit 0 1); (slit 0 1)] (slit 4 1)
    (mkVec (slit 0 1) (slit 0 1) (slit 0 1)) (mkQuat (slit 10 1) (slit 0 1) (slit 0 1) (slit 0 1))).

Definition BP_CB_Bl_4 : list bool := [
  area_is BP_CB_Bl_4_out (mkArea 5 15 4 16);
  height_near BP_CB_Bl_4_out 0 9 8 (dlit 0 1);
  height_near BP_CB_Bl_4_out 1 9 8 (dlit 2 1);
  height_near BP_CB_Bl_4_out 0 9 9 (dlit 0 1);
  height_near BP_CB_Bl_4_out 1 9 9 (dlit 2 1);
  height_near BP_CB_Bl_4_out 0 9 10 (dlit 0 1);
  height_near BP_CB_Bl_4_out 1 9 10 (dlit 2 1);
  height_near BP_CB_Bl_4_out 0 9 11 (dlit 0 1);
  height_near BP_CB_Bl_4_out 1 9 11 (dlit 2 1);
  height_near BP_CB_Bl_4_out 0 9 12 (dlit 0 1);
  height_near BP_CB_Bl_4_out 1 9 12 (dlit 2 1);
  height_near BP_CB_Bl_4_out 0 10 8 (dlit 0 1);
  height_near BP_CB_Bl_4_out 1 10 8 (dlit 2 1);
  height_near BP_CB_Bl_4_out 0 10 9 (dlit 0 1);
  height_near BP_CB_Bl_4_out 1 10 9 (dlit 2 1);
  height_near BP_CB_Bl_4_out 0 10 10 (dlit 0 1);
  height_near BP_CB_Bl_4_out 1 10 10 (dlit 2 1);
  height_near BP_CB_Bl_4_out 0 10 11 (dlit 0 1);
  height_near BP_CB_Bl_4_out 1 10 11 (dlit 2 1);
  height_near BP_CB_Bl_4_out 0 10 12 (dlit 0 1);
  height_near BP_CB_Bl_4_out 1 10 12 (dlit 2 1);
  height_near BP_CB_Bl_4_out 0 11 8 (dlit 0 1);
  height_near BP_CB_Bl_4_out 1 11 8 (dlit 1 1);
  height_near BP_CB_Bl_4_out 0 11 9 (dlit 0 1);
  height_near BP_CB_Bl_4_out 1 11 9 (dlit 1 1);
  height_near BP_CB_Bl_4_out 0 11 10 (dlit 0 1);
  height_near BP_CB_Bl_4_out 1 11 10 (dlit 1 1);
  height_near BP_CB_Bl_4_out 0 11 11 (dlit 0 1);
  height_near BP_CB_Bl_4_out 1 11 11 (dlit 1 1);
  height_near BP_CB_Bl_4_out 0 11 12 (dlit 0 1);
  height_near BP_CB_Bl_4_out 1 11 12 (dlit 1 1);
  only_there BP_CB_Bl_4_out
    [(0, 9, 8); (0, 9, 9); (0, 9, 10); (0, 9, 11); (0, 9, 12); (0, 10, 8); (0, 10, 9); (0, 10, 10); (0, 10, 11); (0, 10, 12); (0, 11, 8); (0, 11, 9); (0, 11, 10); (0, 11, 11); (0, 11, 12)]].
Example BP_CB_Bl_4_pass : forallb id BP_CB_Bl_4 = true.
Proof. vm_cast_no_check (@eq_refl bool true). Qed.
