{
 "C01": {
  "note": "Exact heights. The poses are those whose rasterised body and carried soil stay inside the grid (geom_ok). The theorem named _whole composes the soil with the geometry of the code."
 },
 "C02": {
  "note": "Exact heights; assumes that the int counters of CheckVolume do not overflow. The theorem named _whole composes the soil with the geometry of the code."
 },
 "C03": {
  "note": "Exact heights. The theorem named _whole composes the soil with the geometry of the code."
 },
 "C04": {
  "note": "Any arithmetic, any geometry: stated on the answer of CheckBodyMovement. When it is the warning alone (movement above two cells without movement) Step would log; see C38 for why it cannot."
 },
 "C05": {
  "note": "Any arithmetic, any geometry. The theorem named _whole composes the soil with the geometry of the code."
 },
 "C06": {
  "note": "Exact heights. The theorem named _whole composes the soil with the geometry of the code."
 },
 "C07": {
  "note": "Exact heights, with an explicit bound. The theorem named _whole composes the soil with the geometry of the code."
 },
 "C08": {
  "note": "Any arithmetic. C08_program is for the program of ModelProgram.v, with max_iterations of SimParam."
 },
 "C09": {
  "note": "Exact heights, and for any arithmetic in terms of the test of the code."
 },
 "C10": {
  "note": "Any arithmetic."
 },
 "C11": {
  "note": "Exact heights. The theorem named _whole composes the soil with the geometry of the code."
 },
 "C12": {
  "note": "Exact heights."
 },
 "C13": {
  "note": "Exact heights. The theorem named _whole composes the soil with the geometry of the code."
 },
 "C14": {
  "note": "Exact heights. The theorem named _whole composes the soil with the geometry of the code."
 },
 "C15": {
  "note": "Exact heights. For heights that are not multiples of the cell height the higher column may rise by less than half the tolerance: refuted in that form."
 },
 "C16": {
  "note": "Exact heights. The second half of the property (no allowed slope) is the refuted theorem."
 },
 "C17": {
  "note": "Any arithmetic whose order is asymmetric; meaning of the codes on exact heights."
 },
 "C18": {
  "note": "Exact heights."
 },
 "C19": {
  "note": "Exact heights."
 },
 "C20": {
  "note": "Exact heights."
 },
 "C21": {
  "note": "Exact heights; the border case is the refuted theorem."
 },
 "C22": {
  "note": "Any arithmetic. That the geometry returns areas in the margin is a hypothesis here. The theorem named _whole composes the soil with the geometry of the code."
 },
 "C23": {
  "note": "Exact heights."
 },
 "C24": {
  "note": "Exact heights."
 },
 "C25": {
  "note": ""
 },
 "C26": {
  "note": "Exact heights."
 },
 "C27": {
  "note": "Exact heights. A wall whose distance is at least 2 * half_length_z (a number of cells used as a length in metres, body_soil.cpp:120) is not chosen: the theorem says so. C27_any_arithmetic and C27_order hold in any arithmetic. The theorem named _whole composes the soil with the geometry of the code."
 },
 "C32": {
  "note": "Exact heights."
 },
 "C42": {
  "note": "Init: any arithmetic and any noise function. Accesses of the noise function: exact real numbers, every grid and every random draw; a negative coordinate, which Init never uses, is out of range (refuted form)."
 },
 "C45": {
  "note": "Concrete run."
 },
 "C46": {
  "note": "Refuted, for every random order."
 },
 "C28": {
  "note": "Exact arithmetic. A ratio size / cell above 2^30 is undefined behaviour in the code (conversion of a double to int): the theorem has this third case. The theorem named _whole composes the soil with the geometry of the code. C28_binary32: the sizes of a grid built in binary32 are finite and positive."
 },
 "C30": {
  "note": "Exact arithmetic. Three collinear points are accepted (C30_line_accepted)."
 },
 "C31": {
  "note": "Exact arithmetic. PI / 2 itself has no tangent and is excluded from the second part."
 },
 "C33": {
  "note": "Exact arithmetic."
 },
 "C34": {
  "note": "Exact arithmetic, with the sine and cosine of the real numbers."
 },
 "C35": {
  "note": "Exact arithmetic."
 },
 "C36": {
  "note": "Exact arithmetic. The index of the centre is refuted when the size of the grid is an odd number of half cells."
 },
 "C37": {
  "note": "Exact arithmetic."
 },
 "C38": {
  "note": "CheckBodyMovement in exact real arithmetic; the first Step, with the null quaternion of a new body, in binary32."
 },
 "C39": {
  "note": "Exact arithmetic. The property as written is refuted (equal coordinates less than 1e-10 above a border); the theorem holds with clear_line, and also says that the cells cover the line."
 },
 "C40": {
  "note": "Exact arithmetic for the coefficients; the arrays and the list for any arithmetic."
 },
 "C41": {
  "note": "Exact arithmetic. The cells of the four walls of a bucket and of a blade."
 },
 "C29": {
  "note": "binary32 and binary64 numbers (SpecFloat), NaN and infinities included. Also what follows in Step: quaternion, rasterisation, height difference."
 },
 "C43": {
  "note": "Every set of existing files. The directory is assumed writable; a file exists when it can be opened for reading."
 },
 "C44": {
  "note": "Any arithmetic, any text printed for a number that has no comma and no end of line."
 },
 "C47": {
  "note": "Any arithmetic; C47_binary32 is the whole program of ModelProgram.v in binary32. Partial correctness: a Step that does not end is not excluded here."
 },
 "C48": {
  "note": "A refuted claim: one run in binary32, computed by the kernel."
 },
 "C49": {
  "note": "Exact heights. C49_whole is for the first Step after Init, with the geometry of the code; C49_relaxation is for any Step once its area holds all that can avalanche. C49_run and C49_whole_run are for any number of Steps from Init, when each new pose is near the former one or comes after an equilibrium. Refuted: the cells of index 1, and a body moved far before an equilibrium."
 },
 "C50": {
  "note": "binary32. C50_program_exact is the whole program of ModelProgram.v, from the arguments of the constructor of Grid; C50_binary32_exact is for any geometry and any start, and compares with the exact run. Uses the Flocq library for the meaning of the operations of SpecFloat. C50_same_geometry: over the real numbers the geometry of ModelProgram.v is the one of ModelWhole.v."
 },
 "C51": {
  "note": "Exact real numbers. The sum is stated over any list of lattice points without repetition that holds all the points at a squared distance below 1/2; such a list always exists."
 },
 "C52": {
  "note": "Exact real numbers. The vertices must not lie on the side of a cell. Rectangles one cell wide to the tolerance are left out, and triangles neither narrower than a cell nor wide (slopes below one half) from each side. The margin is at least 1e-10 plus the bend of the wall due to the displacement of its corners."
 },
 "C53": {
  "note": "C53_step and C53_run hold of every geometry that meets geom_ok; C53_whole, C53_bucket and C53_blade are about the whole simulator in exact arithmetic. The hypotheses on the shapes of the walls are those of C52."
 },
 "C54": {
  "note": "Exact real numbers, except C54_flat_refuted (binary32). The origin angle is an argument: std::atan2 is not modelled. Refuted: equal heights, the constant orientation of the blade, and the random blade inside the grid. For the random bucket and the default blade only the points of the trajectory are shown to be in the grid, not the whole run."
 },
 "C55": {
  "note": "Exact real numbers, except C55_last_pose_left_out (any arithmetic). C55_default_mission and C55_default_run are for the bucket and trajectory of main.cpp only: the random trajectories and the blade are left out. Refuted for a slow body, with a trajectory that SoilEvolution does not use."
 },
 "C56": {
  "note": "Exact numbers. C56_run and C56_above for any geometry that meets geom_ok, C56_whole and C56_above_whole for the bucket and blade."
 },
 "C57": {
  "note": "Exact numbers. The initial terrain must be low enough for the int counters (a hypothesis of C57_run and C57_whole; within 100 m of zero in C57_default)."
 },
 "C58": {
  "note": "Any arithmetic, except C58_default (exact numbers, bucket and default trajectory of main.cpp). Files numbered without gap at the start; what is printed for a number is a parameter, and the file system does not fail."
 },
 "C59": {
  "note": "Exact numbers. C59_init and C59_any_noise: any amplitude; C59_whole: amplitude 32, poses that keep the body inside of the grid; C59_default: bucket and default trajectory of main.cpp, without hypothesis; C59_files: any body and trajectory, at most 100000 Steps. What is printed for a number is a parameter."
 },
 "C60": {
  "note": "Any arithmetic for C60_log and C60_checks; C60_evolution and C60_default over the real numbers. The Checks are assumed to be defined (the loop with Checks ends); C57 and C59 prove it. What is printed for a number is a parameter."
 },
 "C61": {
  "note": "Any arithmetic. Refuted for relax_area_ by an exact example with a pile at the border of the grid. With max_iterations_ = 0 the old impact_area_ stays in the state; this case is left out."
 }
}
