{
 "claims": [
  {
   "property": "C01",
   "status": "proved",
   "theorems": [
    "C01_step_conserves_soil",
    "C01_run_conserves_soil",
    "C01_whole"
   ],
   "note": "Exact heights. The poses are those whose rasterised body and carried soil stay inside the grid (geom_ok). The theorem named _whole composes the soil with the geometry of the code."
  },
  {
   "property": "C02",
   "status": "proved",
   "theorems": [
    "C02_check_volume_stays_true",
    "C02_whole"
   ],
   "note": "Exact heights; assumes that the int counters of CheckVolume do not overflow. The theorem named _whole composes the soil with the geometry of the code."
  },
  {
   "property": "C03",
   "status": "proved",
   "theorems": [
    "C03_check_soil_true_after_step",
    "C03_whole"
   ],
   "note": "Exact heights. The theorem named _whole composes the soil with the geometry of the code."
  },
  {
   "property": "C04",
   "status": "proved",
   "theorems": [
    "C04_no_update_when_still",
    "C04_result_is_movement",
    "C04_whole"
   ],
   "note": "Any arithmetic, any geometry: stated on the answer of CheckBodyMovement. When it is the warning alone (movement above two cells without movement) Step would log; see C38 for why it cannot."
  },
  {
   "property": "C05",
   "status": "proved",
   "theorems": [
    "C05_small_moves_accumulate",
    "C05_whole"
   ],
   "note": "Any arithmetic, any geometry. The theorem named _whole composes the soil with the geometry of the code."
  },
  {
   "property": "C06",
   "status": "proved",
   "theorems": [
    "C06_no_undefined_behaviour",
    "C06_run_no_undefined_behaviour",
    "C06_whole"
   ],
   "note": "Exact heights. The theorem named _whole composes the soil with the geometry of the code."
  },
  {
   "property": "C07",
   "status": "proved",
   "theorems": [
    "C07_step_terminates",
    "C07_run_terminates",
    "C07_whole"
   ],
   "note": "Exact heights, with an explicit bound. The theorem named _whole composes the soil with the geometry of the code."
  },
  {
   "property": "C08",
   "status": "proved",
   "theorems": [
    "C08_program",
    "C08_rounds_are_bounded",
    "C08_loop_is_rounds"
   ],
   "note": "Any arithmetic. C08_program is for the program of ModelProgram.v, with max_iterations of SimParam."
  },
  {
   "property": "C09",
   "status": "proved",
   "theorems": [
    "C09_terrain_equilibrium",
    "C09_body_soil_equilibrium",
    "C09_terrain_equilibrium_any",
    "C09_body_soil_equilibrium_any",
    "C09_step_equilibrium",
    "C09_round_equilibrium"
   ],
   "note": "Exact heights, and for any arithmetic in terms of the test of the code."
  },
  {
   "property": "C10",
   "status": "proved",
   "theorems": [
    "C10_relax_terrain_keeps_body",
    "C10_relax_body_soil_keeps_body",
    "C10_move_intersecting_cells_keeps_body"
   ],
   "note": "Any arithmetic."
  },
  {
   "property": "C11",
   "status": "proved",
   "theorems": [
    "C11_terrain_below_body",
    "C11_whole"
   ],
   "note": "Exact heights. The theorem named _whole composes the soil with the geometry of the code."
  },
  {
   "property": "C12",
   "status": "proved",
   "theorems": [
    "C12_lower_soil_below_upper_layer"
   ],
   "note": "Exact heights."
  },
  {
   "property": "C13",
   "status": "proved",
   "theorems": [
    "C13_records_match_soil",
    "C13_phases_records_match_soil",
    "C13_whole"
   ],
   "note": "Exact heights. The theorem named _whole composes the soil with the geometry of the code."
  },
  {
   "property": "C14",
   "status": "proved",
   "theorems": [
    "C14_soil_rests_on_body",
    "C14_whole"
   ],
   "note": "Exact heights. The theorem named _whole composes the soil with the geometry of the code."
  },
  {
   "property": "C15",
   "status": "proved",
   "theorems": [
    "C15_pair_slope",
    "C15_pair_slope_aligned",
    "C15_higher_column_never_rises_refuted"
   ],
   "note": "Exact heights. For heights that are not multiples of the cell height the higher column may rise by less than half the tolerance: refuted in that form."
  },
  {
   "property": "C16",
   "status": "proved",
   "theorems": [
    "C16_relaxation_converges",
    "C16_converges_without_slope_refuted"
   ],
   "note": "Exact heights. The second half of the property (no allowed slope) is the refuted theorem."
  },
  {
   "property": "C17",
   "status": "proved",
   "theorems": [
    "C17_terrain_codes",
    "C17_body_codes",
    "C17_terrain_meaning",
    "C17_body_meaning"
   ],
   "note": "Any arithmetic whose order is asymmetric; meaning of the codes on exact heights."
  },
  {
   "property": "C18",
   "status": "proved",
   "theorems": [
    "C18_terrain_avalanche",
    "C18_body_avalanche"
   ],
   "note": "Exact heights."
  },
  {
   "property": "C19",
   "status": "proved",
   "theorems": [
    "C19_include_new_body_pos"
   ],
   "note": "Exact heights."
  },
  {
   "property": "C20",
   "status": "proved",
   "theorems": [
    "C20_update_body"
   ],
   "note": "Exact heights."
  },
  {
   "property": "C21",
   "status": "proved",
   "theorems": [
    "C21_calc_body_pos",
    "C21_old_body_forgotten_refuted"
   ],
   "note": "Exact heights; the border case is the refuted theorem."
  },
  {
   "property": "C22",
   "status": "proved",
   "theorems": [
    "C22_areas_in_margin",
    "C22_new_areas_in_margin",
    "C22_impact_area"
   ],
   "note": "Any arithmetic. That the geometry returns areas in the margin is a hypothesis here. The theorem named _whole composes the soil with the geometry of the code."
  },
  {
   "property": "C23",
   "status": "proved",
   "theorems": [
    "C23_check_volume_exact",
    "C23_check_volume_returns"
   ],
   "note": "Exact heights."
  },
  {
   "property": "C24",
   "status": "proved",
   "theorems": [
    "C24_check_soil_exact"
   ],
   "note": "Exact heights."
  },
  {
   "property": "C25",
   "status": "proved",
   "theorems": [
    "C25_shuffle_is_permutation",
    "C25_every_order_possible"
   ],
   "note": ""
  },
  {
   "property": "C26",
   "status": "proved",
   "theorems": [
    "C26_update_body_soil"
   ],
   "note": "Exact heights."
  },
  {
   "property": "C27",
   "status": "proved",
   "theorems": [
    "C27_choice_of_wall",
    "C27_distance",
    "C27_any_arithmetic",
    "C27_order",
    "C27_exact_ticks"
   ],
   "note": "Exact heights. A wall whose distance is at least 2 * half_length_z (a number of cells used as a length in metres, body_soil.cpp:120) is not chosen: the theorem says so. C27_any_arithmetic and C27_order hold in any arithmetic. The theorem named _whole composes the soil with the geometry of the code."
  },
  {
   "property": "C28",
   "status": "proved",
   "theorems": [
    "C28_accepts",
    "C28_vectors",
    "C28_binary32",
    "C28_levels"
   ],
   "note": "Exact arithmetic. A ratio size / cell above 2^30 is undefined behaviour in the code (conversion of a double to int): the theorem has this third case. The theorem named _whole composes the soil with the geometry of the code. C28_binary32: the sizes of a grid built in binary32 are finite and positive."
  },
  {
   "property": "C29",
   "status": "proved",
   "theorems": [
    "C29_grid_undefined",
    "C29_grid_passes",
    "C29_body",
    "C29_param",
    "C29_slope",
    "C29_quaternion",
    "C29_position",
    "C29_line"
   ],
   "note": "binary32 and binary64 numbers (SpecFloat), NaN and infinities included. Also what follows in Step: quaternion, rasterisation, height difference."
  },
  {
   "property": "C30",
   "status": "proved",
   "theorems": [
    "C30_accepts",
    "C30_relative",
    "C30_line_accepted"
   ],
   "note": "Exact arithmetic. Three collinear points are accepted (C30_line_accepted)."
  },
  {
   "property": "C31",
   "status": "proved",
   "theorems": [
    "C31_accepts",
    "C31_height_difference"
   ],
   "note": "Exact arithmetic. PI / 2 itself has no tangent and is excluded from the second part."
  },
  {
   "property": "C32",
   "status": "proved",
   "theorems": [
    "C32_new_simout"
   ],
   "note": "Exact heights."
  },
  {
   "property": "C33",
   "status": "proved",
   "theorems": [
    "C33_rigid",
    "C33_scale",
    "C33_product",
    "C33_angle"
   ],
   "note": "Exact arithmetic."
  },
  {
   "property": "C34",
   "status": "proved",
   "theorems": [
    "C34_unit",
    "C34_rotation"
   ],
   "note": "Exact arithmetic, with the sine and cosine of the real numbers."
  },
  {
   "property": "C35",
   "status": "proved",
   "theorems": [
    "C35_unit"
   ],
   "note": "Exact arithmetic."
  },
  {
   "property": "C36",
   "status": "proved",
   "theorems": [
    "C36_round_trip",
    "C36_injective",
    "C36_index",
    "C36_index_refuted"
   ],
   "note": "Exact arithmetic. The index of the centre is refuted when the size of the grid is an odd number of half cells."
  },
  {
   "property": "C37",
   "status": "proved",
   "theorems": [
    "C37_width",
    "C37_rigid"
   ],
   "note": "Exact arithmetic."
  },
  {
   "property": "C38",
   "status": "proved",
   "theorems": [
    "C38_first_step",
    "C38_threshold"
   ],
   "note": "CheckBodyMovement in exact real arithmetic; the first Step, with the null quaternion of a new body, in binary32."
  },
  {
   "property": "C39",
   "status": "proved",
   "theorems": [
    "C39_connected",
    "C39_stops",
    "C39_connected_refuted",
    "C39_border_refuted"
   ],
   "note": "Exact arithmetic. The property as written is refuted (equal coordinates less than 1e-10 above a border); the theorem holds with clear_line, and also says that the cells cover the line."
  },
  {
   "property": "C40",
   "status": "proved",
   "theorems": [
    "C40_coefficients",
    "C40_inside",
    "C40_arrays",
    "C40_filled",
    "C40_vertical"
   ],
   "note": "Exact arithmetic for the coefficients; the arrays and the list for any arithmetic."
  },
  {
   "property": "C41",
   "status": "proved",
   "theorems": [
    "C41_wall",
    "C41_bucket",
    "C41_blade",
    "C41_bucket_corners",
    "C41_blade_corners"
   ],
   "note": "Exact arithmetic. The cells of the four walls of a bucket and of a blade."
  },
  {
   "property": "C42",
   "status": "proved",
   "theorems": [
    "C42_noise_in_range",
    "C42_init_noise",
    "C42_any_point_refuted",
    "C42_init_only_writes_terrain",
    "C42_init_consistent"
   ],
   "note": "Init: any arithmetic and any noise function. Accesses of the noise function: exact real numbers, every grid and every random draw; a negative coordinate, which Init never uses, is out of range (refuted form)."
  },
  {
   "property": "C43",
   "status": "proved",
   "theorems": [
    "C43_numbers",
    "C43_names_distinct",
    "C43_names_width",
    "C43_write_soil",
    "C43_write_body",
    "C43_sequence",
    "C43_full_directory",
    "C43_full_directory_refuted",
    "C43_body_soil_overwritten_refuted"
   ],
   "note": "Every set of existing files. The directory is assumed writable; a file exists when it can be opened for reading."
  },
  {
   "property": "C44",
   "status": "proved",
   "theorems": [
    "C44_terrain",
    "C44_body_soil",
    "C44_nothing_hidden",
    "C44_body"
   ],
   "note": "Any arithmetic, any text printed for a number that has no comma and no end of line."
  },
  {
   "property": "C45",
   "status": "proved",
   "theorems": [
    "C45_misaligned_grid_refuted"
   ],
   "note": "Concrete run."
  },
  {
   "property": "C46",
   "status": "proved",
   "theorems": [
    "C46_unchanged_means_equilibrium_refuted"
   ],
   "note": "Refuted, for every random order."
  },
  {
   "property": "C47",
   "status": "proved",
   "theorems": [
    "C47_step_any_arithmetic",
    "C47_run_any_arithmetic",
    "C47_start_any_arithmetic",
    "C47_binary32"
   ],
   "note": "Any arithmetic; C47_binary32 is the whole program of ModelProgram.v in binary32. Partial correctness: a Step that does not end is not excluded here."
  },
  {
   "property": "C48",
   "status": "proved",
   "theorems": [
    "C48_binary32_conservation_refuted"
   ],
   "note": "A refuted claim: one run in binary32, computed by the kernel."
  },
  {
   "property": "C49",
   "status": "proved",
   "theorems": [
    "C49_relaxation",
    "C49_step",
    "C49_whole",
    "C49_bare",
    "C49_first_row_refuted",
    "C49_run",
    "C49_whole_run",
    "C49_unsettled_jump_refuted"
   ],
   "note": "Exact heights. C49_whole is for the first Step after Init, with the geometry of the code; C49_relaxation is for any Step once its area holds all that can avalanche. C49_run and C49_whole_run are for any number of Steps from Init, when each new pose is near the former one or comes after an equilibrium. Refuted: the cells of index 1, and a body moved far before an equilibrium."
  },
  {
   "property": "C50",
   "status": "proved",
   "theorems": [
    "C50_binary32_exact",
    "C50_program_exact",
    "C50_same_geometry"
   ],
   "note": "binary32. C50_program_exact is the whole program of ModelProgram.v, from the arguments of the constructor of Grid; C50_binary32_exact is for any geometry and any start, and compares with the exact run. Uses the Flocq library for the meaning of the operations of SpecFloat. C50_same_geometry: over the real numbers the geometry of ModelProgram.v is the one of ModelWhole.v."
  },
  {
   "property": "C51",
   "status": "proved",
   "theorems": [
    "C51_noise_is_a_sum",
    "C51_covers",
    "C51_noise_bound",
    "C51_no_overflow",
    "C51_init_heights",
    "C51_init_bound",
    "C51_flat"
   ],
   "note": "Exact real numbers. The sum is stated over any list of lattice points without repetition that holds all the points at a squared distance below 1/2; such a list always exists."
  },
  {
   "property": "C52",
   "status": "proved",
   "theorems": [
    "C52_rectangle",
    "C52_triangle",
    "C52_bucket",
    "C52_blade"
   ],
   "note": "Exact real numbers. The vertices must not lie on the side of a cell. Rectangles one cell wide to the tolerance are left out, and triangles neither narrower than a cell nor wide (slopes below one half) from each side. The margin is at least 1e-10 plus the bend of the wall due to the displacement of its corners."
  },
  {
   "property": "C53",
   "status": "proved",
   "theorems": [
    "C53_step",
    "C53_run",
    "C53_whole",
    "C53_bucket",
    "C53_blade"
   ],
   "note": "C53_step and C53_run hold of every geometry that meets geom_ok; C53_whole, C53_bucket and C53_blade are about the whole simulator in exact arithmetic. The hypotheses on the shapes of the walls are those of C52."
  },
  {
   "property": "C54",
   "status": "proved",
   "theorems": [
    "C54_parabola",
    "C54_ends",
    "C54_flat_refuted",
    "C54_blade_turns_refuted",
    "C54_corners",
    "C54_random_blade_leaves_refuted",
    "C54_random_bucket_stays",
    "C54_default_blade_stays"
   ],
   "note": "Exact real numbers, except C54_flat_refuted (binary32). The origin angle is an argument: std::atan2 is not modelled. Refuted: equal heights, the constant orientation of the blade, and the random blade inside the grid. For the random bucket and the default blade only the points of the trajectory are shown to be in the grid, not the whole run."
  },
  {
   "property": "C55",
   "status": "proved",
   "theorems": [
    "C55_last_pose_left_out",
    "C55_rule",
    "C55_default_times",
    "C55_default_mission",
    "C55_default_run",
    "C55_slow_body_refuted"
   ],
   "note": "Exact real numbers, except C55_last_pose_left_out (any arithmetic). C55_default_mission and C55_default_run are for the bucket and trajectory of main.cpp only: the random trajectories and the blade are left out. Refuted for a slow body, with a trajectory that SoilEvolution does not use."
  },
  {
   "property": "C56",
   "status": "proved",
   "theorems": [
    "C56_run",
    "C56_whole",
    "C56_above",
    "C56_above_whole"
   ],
   "note": "Exact numbers. C56_run and C56_above for any geometry that meets geom_ok, C56_whole and C56_above_whole for the bucket and blade."
  },
  {
   "property": "C57",
   "status": "proved",
   "theorems": [
    "C57_check",
    "C57_run",
    "C57_whole",
    "C57_default"
   ],
   "note": "Exact numbers. The initial terrain must be low enough for the int counters (a hypothesis of C57_run and C57_whole; within 100 m of zero in C57_default)."
  },
  {
   "property": "C58",
   "status": "proved",
   "theorems": [
    "C58_writing_is_silent",
    "C58_loop",
    "C58_files",
    "C58_default"
   ],
   "note": "Any arithmetic, except C58_default (exact numbers, bucket and default trajectory of main.cpp). Files numbered without gap at the start; what is printed for a number is a parameter, and the file system does not fail."
  },
  {
   "property": "C59",
   "status": "proved",
   "theorems": [
    "C59_init",
    "C59_any_noise",
    "C59_whole",
    "C59_default",
    "C59_files"
   ],
   "note": "Exact numbers. C59_init and C59_any_noise: any amplitude; C59_whole: amplitude 32, poses that keep the body inside of the grid; C59_default: bucket and default trajectory of main.cpp, without hypothesis; C59_files: any body and trajectory, at most 100000 Steps. What is printed for a number is a parameter."
  },
  {
   "property": "C60",
   "status": "proved",
   "theorems": [
    "C60_log",
    "C60_check",
    "C60_check_again",
    "C60_checks",
    "C60_evolution",
    "C60_default"
   ],
   "note": "Any arithmetic for C60_log and C60_checks; C60_evolution and C60_default over the real numbers. The Checks are assumed to be defined (the loop with Checks ends); C57 and C59 prove it. What is printed for a number is a parameter."
  },
  {
   "property": "C61",
   "status": "proved",
   "theorems": [
    "C61_step",
    "C61_run",
    "C61_relax_area_refuted"
   ],
   "note": "Any arithmetic. Refuted for relax_area_ by an exact example with a pile at the border of the grid. With max_iterations_ = 0 the old impact_area_ stays in the state; this case is left out."
  }
 ]
}