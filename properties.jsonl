{"id": "C01", "title": "Step conserves the amount of soil", "statement": "Starting from a simulation output whose heights are multiples of cell_size_z, a call to Step never creates soil: the total volume (terrain plus soil resting on the body) after the call is at most the volume before, and it is exactly equal unless the call logged the 'extra soil has been arbitrarily removed' warning.", "quantifier": "every consistent simulation output, every body position the geometry code may produce, every random draw, every repose angle, iteration limit and tolerance below half a cell", "why_tests_cant": "Tests fix one seed, one terrain and one short trajectory; the volume balance is a sum over all cells that must survive every branch of every relaxation and relocation case in every order.", "anchors": ["soil_simulator/soil_dynamics.cpp: Step", "soil_simulator/relax.cpp: RelaxTerrain, RelaxBodySoil", "soil_simulator/intersecting_cells.cpp: MoveIntersectingCells", "soil_simulator/body_soil.cpp: UpdateBodySoil"]}
{"id": "C02", "title": "CheckVolume keeps answering true along a simulation", "statement": "If CheckVolume(init_volume) returns true and then any number of Step calls are made without a soil-removal warning, CheckVolume(init_volume) still returns true.", "quantifier": "every sequence of Step calls of any length, every pose sequence, every random draw", "why_tests_cant": "It is an invariant over unbounded histories; a test checks finitely many calls.", "anchors": ["soil_simulator/utils.cpp: CheckVolume", "soil_simulator/soil_dynamics.cpp: Step, Check"]}
{"id": "C03", "title": "CheckSoil answers true after every Step", "statement": "After every Step call that performed an update on a consistent simulation output, CheckSoil returns true: terrain does not overlap the body, layers are well ordered and disjoint, and soil on the body rests on the body and does not cross the other layer.", "quantifier": "every consistent simulation output, every rasterised body, every random draw", "why_tests_cant": "CheckSoil is a conjunction over all cells of conditions that must be re-established by four separate phases for every configuration.", "anchors": ["soil_simulator/utils.cpp: CheckSoil", "soil_simulator/soil_dynamics.cpp: Step"]}
{"id": "C04", "title": "Step is a no-op when the body barely moved", "statement": "When no corner of the body moved by at least half of the smallest cell size since the last update, Step returns false and neither the simulation output, the random generator nor the stored body pose changes; otherwise it returns true.", "quantifier": "every simulation output, every pair of poses", "why_tests_cant": "Absence of side effects has to hold for all states.", "anchors": ["soil_simulator/soil_dynamics.cpp: Step", "soil_simulator/utils.cpp: CheckBodyMovement"]}
{"id": "C05", "title": "Small movements accumulate", "statement": "The movement test compares with the pose of the last performed update, not of the last call: a sequence of Step calls each of which is too small leaves the reference pose fixed, so the first pose at distance at least half a cell from it triggers an update.", "quantifier": "every finite sequence of poses", "why_tests_cant": "Requires reasoning on histories of arbitrary length.", "anchors": ["soil_simulator/soil_dynamics.cpp: Step", "soil_simulator/body_soil.cpp: UpdateBodySoil (lines 214-216)", "soil_simulator/utils.cpp: CheckBodyMovement"]}
{"id": "C06", "title": "Step performs no out-of-range access while the body stays inside the grid", "statement": "If every rasterised body cell lies strictly inside the grid (not on its border ring), within the vertical index range, and every soil column estimated position has its eight neighbours in the grid, then Step performs no out-of-range vector access and reads no uninitialised variable.", "quantifier": "every consistent simulation output, every such geometry, every random draw", "why_tests_cant": "Undefined behaviour is invisible to tests unless it crashes; the claim ranges over all states.", "anchors": ["soil_simulator/soil_dynamics.cpp: Step", "soil_simulator/intersecting_cells.cpp", "soil_simulator/relax.cpp", "soil_simulator/body_soil.cpp"]}
{"id": "C07", "title": "Step terminates", "statement": "The unbounded loops of the soil update (searching outwards for room for intersecting soil, and processing the list of soil columns that grows while it is being processed) terminate.", "quantifier": "every consistent simulation output with the body strictly inside the grid", "why_tests_cant": "Termination cannot be observed by a finite test.", "anchors": ["soil_simulator/intersecting_cells.cpp: MoveIntersectingBodySoil, MoveIntersectingBody"]}
{"id": "C08", "title": "Relaxation iterations are bounded and stop at equilibrium", "statement": "Step runs at most max_iterations relaxation rounds, and stops earlier exactly when a full round found nothing to move.", "quantifier": "every state, every max_iterations", "why_tests_cant": "Holds for all iteration limits and states.", "anchors": ["soil_simulator/soil_dynamics.cpp: Step (lines 84-116)"]}
{"id": "C09", "title": "Meaning of equilibrium_", "statement": "If the relaxation of the terrain reports equilibrium, then no column inside the impact area has one of its four neighbours that could receive soil according to the repose angle, and the terrain, the soil on the body and the bookkeeping were not changed by that round. The same holds for soil resting on the body after the body soil relaxation.", "quantifier": "every state, every random draw, every repose angle", "why_tests_cant": "Universally quantified over cells and states.", "anchors": ["soil_simulator/relax.cpp: RelaxTerrain, RelaxBodySoil, LocateUnstableTerrainCell"]}
{"id": "C10", "title": "Relaxation never moves the body", "statement": "RelaxTerrain, RelaxBodySoil and MoveIntersectingCells never change body_ nor body_area_; the terrain relaxation changes heights only at cells of the impact area and their four neighbours.", "quantifier": "every state, every arithmetic (including floating point), every random draw", "why_tests_cant": "Frame conditions quantify over all untouched cells.", "anchors": ["soil_simulator/relax.cpp", "soil_simulator/intersecting_cells.cpp"]}
{"id": "C11", "title": "Terrain never overlaps the body after MoveIntersectingCells", "statement": "After the intersecting cells have been moved, at every cell of the body area where a body layer is present the terrain is not above the bottom of the layer; this still holds after any number of relaxation rounds.", "quantifier": "every state with well formed body layers, every random draw", "why_tests_cant": "All cells, all orders of processing.", "anchors": ["soil_simulator/intersecting_cells.cpp: MoveIntersectingBody, LocateIntersectingCells", "soil_simulator/relax.cpp"]}
{"id": "C12", "title": "Soil on the lower body layer never crosses the upper layer", "statement": "After the intersecting cells have been moved, soil resting on the lower of two body layers does not extend above the bottom of the upper layer; this still holds after any number of relaxation rounds (the 'by construction, it must have enough space' comment of the code).", "quantifier": "every consistent state, every random draw, every repose angle", "why_tests_cant": "The code comment claims it without proof, and tests only sample some status codes.", "anchors": ["soil_simulator/intersecting_cells.cpp: MoveIntersectingBodySoil", "soil_simulator/relax.cpp: RelaxUnstableBodyCell"]}
{"id": "C13", "title": "Soil bookkeeping matches the soil on the body", "statement": "At every cell and layer, the heights recorded in body_soil_pos_ add up to the height of the soil column stored in body_soil_, every recorded height is non negative, and no column exists without a record. All operations of Step keep this true.", "quantifier": "every consistent state, every operation, every random draw", "why_tests_cant": "Sum over lists of unbounded length preserved by each branch.", "anchors": ["soil_simulator/types.hpp: body_soil, SimOut::body_soil_pos_", "soil_simulator/relax.cpp", "soil_simulator/intersecting_cells.cpp", "soil_simulator/body_soil.cpp"]}
{"id": "C14", "title": "Soil on the body rests exactly on the body", "statement": "Whenever soil is present on a body layer, that body layer is present at the same cell and the bottom of the soil equals the top of the layer.", "quantifier": "every state reachable by Step", "why_tests_cant": "Invariant over unbounded histories.", "anchors": ["soil_simulator/relax.cpp", "soil_simulator/intersecting_cells.cpp", "soil_simulator/body_soil.cpp"]}
{"id": "C15", "title": "Relaxing a free pair of columns restores the repose slope", "statement": "When a terrain column is relaxed onto a neighbour without body, the sum of both heights is unchanged, the new height difference is at most the allowed difference (up to the tolerance), the higher column does not rise, the lower one does not sink, and the new upper height is a multiple of cell_size_z.", "quantifier": "all heights, all allowed differences, all cell sizes, all tolerances", "why_tests_cant": "Real-valued inputs cannot be enumerated.", "anchors": ["soil_simulator/relax.cpp: CheckUnstableTerrainCell, RelaxUnstableTerrainCell"]}
{"id": "C16", "title": "Terrain relaxation converges", "statement": "Without body and with a repose angle allowing a height difference of at least one cell, repeating the relaxation reaches equilibrium after finitely many rounds, whatever the initial grid-aligned terrain and the random order. With a zero allowed difference this fails: two columns one cell apart are swapped for ever.", "quantifier": "every grid-aligned terrain, every random order; counterexample for zero repose angle", "why_tests_cant": "Liveness over unbounded executions.", "anchors": ["soil_simulator/relax.cpp: RelaxTerrain", "soil_simulator/soil_dynamics.cpp: Step"]}
{"id": "C17", "title": "Status codes are only the documented ones", "statement": "CheckUnstableTerrainCell returns 0 or one of the documented two-digit codes consistent with the body layers present; CheckUnstableBodyCell never returns 30 and never uses an unset height.", "quantifier": "every state and every pair of cells, every arithmetic", "why_tests_cant": "All combinations of layers and heights.", "anchors": ["soil_simulator/relax.cpp: CheckUnstableTerrainCell, CheckUnstableBodyCell"]}
{"id": "C18", "title": "Relaxation moves soil downwards only", "statement": "Every single avalanche moves a non negative amount of soil from a column to a neighbouring column whose top was lower than the source top minus the allowed difference, and never leaves the receiving column higher than the source column was.", "quantifier": "every consistent grid-aligned state", "why_tests_cant": "All heights.", "anchors": ["soil_simulator/relax.cpp: RelaxUnstableTerrainCell, RelaxUnstableBodyCell"]}
{"id": "C19", "title": "Including a body interval keeps all the body and all the interval", "statement": "IncludeNewBodyPos never removes body: every height covered by a layer before the call is still covered, the new interval is covered by a single layer, layers stay ordered, disjoint and separated by at least the tolerance, and only the given cell is changed.", "quantifier": "every pair of existing well formed layers, every new interval, every tolerance", "why_tests_cant": "Real-valued intervals in all relative positions.", "anchors": ["soil_simulator/body_pos.cpp: IncludeNewBodyPos"]}
{"id": "C20", "title": "UpdateBody covers exactly the rasterised wall", "statement": "For a sorted list of wall cells, after UpdateBody the body at each listed XY position covers the interval from the bottom of its lowest listed cell to the top of its highest listed cell, and other XY positions are unchanged.", "quantifier": "every sorted list of cells, every state", "why_tests_cant": "Lists of unbounded length.", "anchors": ["soil_simulator/body_pos.cpp: UpdateBody, IncludeNewBodyPos"]}
{"id": "C21", "title": "CalcBodyPos forgets the previous body", "statement": "After CalcBodyPos, body_ is present only at XY positions of the new rasterised walls, provided the old body was inside the old body area. A body cell on the grid border (index 0) is outside any body area and would stay for ever.", "quantifier": "every state, every pair of poses; counterexample on the border", "why_tests_cant": "Stale data appears only for particular histories.", "anchors": ["soil_simulator/body_pos.cpp: CalcBodyPos"]}
{"id": "C22", "title": "Areas stay inside the grid margin", "statement": "body_area_, relax_area_ and impact_area_ always have lower bounds at least 1 and upper bounds at most the last index, so that the four neighbours of every scanned cell exist.", "quantifier": "every history of Step calls", "why_tests_cant": "Invariant over unbounded histories.", "anchors": ["soil_simulator/soil_dynamics.cpp: Step", "soil_simulator/relax.cpp: RelaxTerrain", "soil_simulator/body_pos.cpp: CalcBodyPos", "soil_simulator/types.cpp: SimOut"]}
{"id": "C23", "title": "CheckVolume is exact", "statement": "CheckVolume returns true if and only if bookkeeping agrees with the columns within the tolerance at every cell, and the total number of soil cells (each column rounded to the nearest number of cells) equals the given number.", "quantifier": "every state", "why_tests_cant": "Iff over all states.", "anchors": ["soil_simulator/utils.cpp: CheckVolume"]}
{"id": "C24", "title": "CheckSoil is exact", "statement": "CheckSoil returns true if and only if all the documented conventions hold at every cell of the body area; it ignores cells outside.", "quantifier": "every state", "why_tests_cant": "Iff over all states.", "anchors": ["soil_simulator/utils.cpp: CheckSoil"]}
{"id": "C25", "title": "Random orders are permutations", "statement": "Every in-place randomisation (unstable cells, directions, body soil records, permutation table) produces a permutation of its input for every possible sequence of random draws, and every permutation can be produced.", "quantifier": "every list, every random draw", "why_tests_cant": "Unbounded lists and draws.", "anchors": ["soil_simulator/relax.cpp: RelaxTerrain (lines 62-69)", "soil_simulator/soil_dynamics.cpp: Step (105-112), Init (21-33)"]}
{"id": "C26", "title": "UpdateBodySoil keeps every soil column", "statement": "UpdateBodySoil moves each recorded soil column to a body wall around its estimated position, or to the terrain with a warning; the total volume is unchanged and afterwards every column rests on the new body.", "quantifier": "every consistent list of records, every new body, every estimated position", "why_tests_cant": "Lists of unbounded length and arbitrary geometry.", "anchors": ["soil_simulator/body_soil.cpp: UpdateBodySoil"]}
{"id": "C27", "title": "UpdateBodySoil chooses the documented wall", "statement": "The chosen wall is the first wall, in the documented exploration order, whose vertical distance to the estimated position is below one cell height plus tolerance; when there is none it is a wall at minimal vertical distance among the nine cells; when there is no wall at all the soil goes to the terrain below the estimated position.", "quantifier": "every body, every estimated position", "why_tests_cant": "All relative heights of up to eighteen walls.", "anchors": ["soil_simulator/body_soil.cpp: UpdateBodySoil (lines 115-211)"]}
{"id": "C28", "title": "Grid constructor contract", "statement": "Grid accepts exactly the positive sizes with cell_size_z <= cell_size_xy <= grid_size_x, grid_size_y and cell_size_z <= grid_size_z; vectors have 2*half+1 entries spaced by the cell size, starting at -grid_size (x, y) and -grid_size_z + cell_size_z (z).", "quantifier": "all five real parameters", "why_tests_cant": "Continuous domain.", "anchors": ["soil_simulator/types.cpp: Grid::Grid"]}
{"id": "C29", "title": "Constructors let non-numbers through", "statement": "The argument checks of Grid, Body and SimParam do not reject NaN (and Grid does not reject infinity): a grid built with a NaN size passes every check and then converts NaN to an integer, which is undefined behaviour.", "quantifier": "all binary32 inputs including NaN and infinities", "why_tests_cant": "Tests do not try NaN; the claim is about the complete floating-point domain.", "anchors": ["soil_simulator/types.cpp: Grid::Grid, Body::Body, SimParam::SimParam"]}
{"id": "C30", "title": "Body constructor contract", "statement": "Body accepts exactly four vectors of size 3 with pairwise distinct joint, base and teeth positions and positive width; the stored vertices are relative to the origin, so that translating all four input points gives the same body.", "quantifier": "all inputs", "why_tests_cant": "Continuous domain and vectors of any length.", "anchors": ["soil_simulator/types.cpp: Body::Body"]}
{"id": "C31", "title": "SimParam constructor contract", "statement": "SimParam accepts exactly repose angles in [0, pi/2], non negative iteration numbers and cell buffers of at least 2; the allowed height difference derived from an accepted angle is a non negative multiple of cell_size_z.", "quantifier": "all inputs", "why_tests_cant": "Continuous domain.", "anchors": ["soil_simulator/types.cpp: SimParam::SimParam", "soil_simulator/relax.cpp: RelaxTerrain (lines 48-52)"]}
{"id": "C32", "title": "A new SimOut is consistent", "statement": "A freshly constructed SimOut is flat, has no body and no soil on the body, has dimensions matching the grid, and satisfies every invariant used by Step.", "quantifier": "every grid", "why_tests_cant": "All grids.", "anchors": ["soil_simulator/types.cpp: SimOut::SimOut"]}
{"id": "C33", "title": "Quaternion rotation is a rigid motion", "statement": "CalcRotationQuaternion preserves lengths, distances, dot products and orientation (cross products), is linear, and does not depend on the scale of the quaternion nor on its sign; composing two rotations is the rotation by the product quaternion.", "quantifier": "all non-zero quaternions, all vectors", "why_tests_cant": "Continuous domain.", "anchors": ["soil_simulator/utils.cpp: CalcRotationQuaternion, MultiplyQuaternion"]}
{"id": "C34", "title": "AngleToQuat yields unit quaternions", "statement": "AngleToQuat returns a quaternion of norm one with non-negative scalar part for every triple of angles.", "quantifier": "all angles", "why_tests_cant": "Continuous domain.", "anchors": ["soil_simulator/utils.cpp: AngleToQuat"]}
{"id": "C35", "title": "CalcNormal yields a unit normal", "statement": "For three non-collinear points CalcNormal returns a unit vector orthogonal to the plane of the points, with right-handed orientation.", "quantifier": "all non-collinear triples", "why_tests_cant": "Continuous domain.", "anchors": ["soil_simulator/utils.cpp: CalcNormal"]}
{"id": "C36", "title": "Body frame round trip", "statement": "CalcBodyFramePos is the inverse of the placement used when soil is moved with the body: placing the returned position with the same pose gives back the centre of the cell and the height.", "quantifier": "all cells, heights, positions and non-zero quaternions", "why_tests_cant": "Continuous domain.", "anchors": ["soil_simulator/utils.cpp: CalcBodyFramePos", "soil_simulator/body_soil.cpp: UpdateBodySoil (lines 76-89)"]}
{"id": "C37", "title": "Body corners move rigidly", "statement": "CalcBodyCornerPos places the right and left corners exactly width apart along the unit normal of the side, and distances between corners do not depend on the pose.", "quantifier": "all poses, all non-degenerate bodies", "why_tests_cant": "Continuous domain.", "anchors": ["soil_simulator/utils.cpp: CalcBodyCornerPos"]}
{"id": "C38", "title": "Movement test is the documented threshold", "statement": "CheckBodyMovement returns false exactly when all six corners moved by less than half of the smaller cell size; a warning is logged exactly when some corner moved by more than two cells. The very first Step of a body always performs an update, because the stored quaternion is zero and all comparisons with NaN are false.", "quantifier": "all poses; binary32 semantics for the first step", "why_tests_cant": "Continuous domain and NaN propagation.", "anchors": ["soil_simulator/utils.cpp: CheckBodyMovement", "soil_simulator/types.cpp: Body::Body (lines 110-116)"]}
{"id": "C39", "title": "Line rasterisation is connected", "statement": "CalcLinePos starts at the cell of the first point, takes steps changing one index by one towards the second point, ends at the cell of the second point, and stops after finitely many steps.", "quantifier": "all pairs of points with no coordinate exactly on a cell boundary", "why_tests_cant": "Continuous domain.", "anchors": ["soil_simulator/body_pos.cpp: CalcLinePos"]}
{"id": "C40", "title": "Surface decomposition solves the linear system", "statement": "DecomposeVectorRectangle and DecomposeVectorTriangle return coefficients such that the cell corner equals a + c_ab*AB + c_ad*AD, mark exactly the corners strictly inside (by the tolerance), and the returned count is four times the number of marked corners, so that the list of cells is filled exactly.", "quantifier": "all non-degenerate surfaces, all bounding boxes", "why_tests_cant": "Continuous domain.", "anchors": ["soil_simulator/body_pos.cpp: DecomposeVectorRectangle, DecomposeVectorTriangle, CalcRectanglePos, CalcTrianglePos"]}
{"id": "C41", "title": "Rasterised walls stay in the body area", "statement": "Every XY position produced by the rasterisation of a wall lies inside the bounding box of its vertices extended by one cell, hence inside body_area_ when the area is not clipped by the grid border.", "quantifier": "all poses", "why_tests_cant": "Continuous domain.", "anchors": ["soil_simulator/body_pos.cpp: CalcRectanglePos, CalcTrianglePos, CalcLinePos, CalcBodyPos"]}
{"id": "C42", "title": "Init only writes grid-aligned terrain", "statement": "Init leaves everything but the terrain unchanged and writes only multiples of cell_size_z; the permutation table is a permutation of 0..255 and every table access of the noise function is in range.", "quantifier": "every grid, amplitude and random draw", "why_tests_cant": "All draws and grids.", "anchors": ["soil_simulator/soil_dynamics.cpp: Init", "soil_simulator/utils.cpp: simplex_noise"]}
{"id": "C43", "title": "Output files are never overwritten before number 99999", "statement": "WriteSoil and WriteBody write to the smallest number for which no file exists, with names of fixed width; no existing terrain or body file is overwritten unless all 100000 numbers are taken, in which case number 99999 is overwritten. The body_soil file reuses the terrain number without any check and may overwrite an existing file.", "quantifier": "every set of existing files", "why_tests_cant": "Needs directories with up to 100000 files in all combinations.", "anchors": ["soil_simulator/utils.cpp: WriteSoil, WriteBody"]}
{"id": "C44", "title": "Output files contain the whole state", "statement": "The terrain file has one row per cell in row-major order with its height; the body_soil file has one row per existing soil column, or a single dummy row when nothing is recorded.", "quantifier": "every state", "why_tests_cant": "All states.", "anchors": ["soil_simulator/utils.cpp: WriteSoil"]}
{"id": "C45", "title": "Misaligned vertical grids break the exact volume balance", "statement": "If grid_size_z is not a multiple of cell_size_z, body heights are not multiples of cell_size_z and a single Step can change the total volume without any warning.", "quantifier": "existence of a grid, a state and a geometry", "why_tests_cant": "Tests use aligned grids only.", "anchors": ["soil_simulator/types.cpp: Grid::Grid (line 71)", "soil_simulator/body_soil.cpp: UpdateBodySoil (line 74)", "soil_simulator/intersecting_cells.cpp: MoveIntersectingBody"]}
{"id": "C46", "title": "A round that changes nothing reports equilibrium", "statement": "When a whole relaxation round leaves the terrain, the soil on the body and the bookkeeping unchanged, Step stops with equilibrium_ set. This fails: CheckUnstableBodyCell may report that soil can fall between two layers while RelaxUnstableBodyCell finds no room for it, so that the loop runs until max_iterations.", "quantifier": "every state; refuted by one state, for every random order and every number of rounds", "why_tests_cant": "The test suite checks single avalanches with room; a loop that never ends before the limit is only visible as lost time.", "anchors": ["soil_simulator/relax.cpp: CheckUnstableBodyCell (lines 493-517)", "soil_simulator/relax.cpp: RelaxUnstableBodyCell (lines 826-846)", "soil_simulator/soil_dynamics.cpp: Step (lines 88-116)"]}
{"id": "C47", "title": "Step has no undefined behaviour, whatever the arithmetic rounds to", "statement": "After Init, as long as every pose keeps the rasterised body off the border of the grid and the carried soil is placed inside the grid, no sequence of calls of Step reads or writes outside an array, reads an unset variable or overflows, for every interpretation of the float operations that has 0 == 0 and not tolerance < 0; in particular in binary32, NaN and infinite heights included.", "quantifier": "every record of height operations, every grid, body, list of poses, random order, noise amplitude", "why_tests_cant": "Rounding changes which branches run; tests sample a handful of branches and do not run under a memory checker.", "anchors": ["soil_simulator/soil_dynamics.cpp: Init (lines 18-59), Step (lines 61-119)", "soil_simulator/relax.cpp", "soil_simulator/intersecting_cells.cpp", "soil_simulator/body_soil.cpp", "soil_simulator/body_pos.cpp: UpdateBody, IncludeNewBodyPos"]}
{"id": "C48", "title": "In binary32 the amount of soil drifts without a warning", "statement": "The exact conservation of C01 fails once heights are rounded to binary32: a bucket digging in a noisy terrain with an ordinary cell size changes the exact sum of the heights although no soil is reported as removed.", "quantifier": "existence of a grid, a terrain and a list of poses", "why_tests_cant": "CheckVolume compares with half a cell of tolerance, so small drifts are invisible to the tests.", "anchors": ["soil_simulator/soil_dynamics.cpp: Step", "soil_simulator/utils.cpp: CheckVolume (line 239)", "soil_simulator/relax.cpp", "soil_simulator/intersecting_cells.cpp"]}
{"id": "C49", "title": "When Step reports an equilibrium no terrain can avalanche anywhere", "statement": "When the loop of Step ends with equilibrium_ set, no terrain cell of the interior of the grid can avalanche onto a neighbour, also outside of the area scanned by the last round: the areas kept by RelaxTerrain and UpdateBody (cell_buffer cells around the relaxed cells and around the body) are large enough. It holds for the Steps after Init with cell_buffer >= 4, for any terrain, as long as each new pose is near the former one or comes after an equilibrium, and no soil of the body was given to the terrain by UpdateBodySoil. It fails for the cells of index 1, which RelaxTerrain drops from the area, and for a body moved far away before an equilibrium.", "quantifier": "every grid, terrain, body, pose, random order, number of rounds, number of Steps; two counterexamples", "why_tests_cant": "The tests look at single avalanches; whether a slope is left behind outside of the scanned area depends on the whole terrain and on the random order.", "anchors": ["soil_simulator/relax.cpp: RelaxTerrain (lines 42-137)", "soil_simulator/soil_dynamics.cpp: Step (lines 88-116)", "soil_simulator/body_pos.cpp: UpdateBody, body_area_ (lines 82-97)"]}
{"id": "C50", "title": "With a cell height that is a power of two the program in binary32 makes no rounding error on heights", "statement": "When cell_size_z is a power of two, the grid height a multiple of it, and the tolerance neither larger than a quarter of a cell nor so small that it vanishes when added to a height of the grid, every sequence of calls of Step in binary32 takes the same decisions and ends in the same state as in exact arithmetic, as long as the sum of all soil fits in 2^20 cells: it ends, heights remain multiples of the cell height, the state remains consistent, and the amount of soil is the same or the program warns that soil was removed.", "quantifier": "every such grid and tolerance, terrain made by Init, body, poses that stay in the grid, random order, number of Steps", "why_tests_cant": "The tests run single functions with a few rounded heights and compare with a tolerance; they cannot see that all the operations on heights are exact for every terrain, nor that C48 cannot happen on such a grid.", "anchors": ["soil_simulator/types.cpp: Grid (lines 14-74)", "soil_simulator/soil_dynamics.cpp: Init, Step", "soil_simulator/relax.cpp", "soil_simulator/intersecting_cells.cpp", "soil_simulator/body_soil.cpp", "soil_simulator/body_pos.cpp: IncludeNewBodyPos"]}
{"id": "C51", "title": "The noise of Init is a sum of one smooth bump per lattice point and bounds the initial terrain", "statement": "simplex_noise returns the sum, over all the points of the triangular lattice, of a bump that vanishes at a squared distance of 1/2 and whose direction is one of eight picked by the table; looking at the three corners of the triangle that holds the point loses nothing. The noise is at most 3/16 in absolute value, so Init writes heights that are multiples of cell_size_z and at most 45/256 of the amplitude plus half a cell, and zero when the amplitude is zero. No integer overflows when it returns.", "quantifier": "every point, table, grid, amplitude and cell", "why_tests_cant": "The tests of Init compare a few heights for one seed; the choice of the corners, the bound and the overflow range depend on the point and on the table.", "anchors": ["soil_simulator/utils.cpp: simplex_noise (lines 703-771)", "soil_simulator/soil_dynamics.cpp: Init (lines 18-59)"]}
{"id": "C52", "title": "Seen from above, the walls of a body have no holes", "statement": "Every column of the grid in which a wall of the bucket or of the blade lies, away from the sides of the column by a small margin, holds a cell of the rasterised wall: the lines along the edges and the cells around the inner corners leave no column out. It holds for walls seen edge on, for walls narrower than a cell and for walls wider than a cell, up to an area that depends on the tolerance.", "quantifier": "every grid, body, pose and tolerance for which the rasterisation succeeds, every wall and every point of it", "why_tests_cant": "The tests compare the cells of a few axis-aligned or simple surfaces; whether an inner column is skipped depends on how the corners of the cells fall next to the edges.", "anchors": ["soil_simulator/body_pos.cpp: CalcRectanglePos (lines 296-403)", "soil_simulator/body_pos.cpp: CalcTrianglePos (lines 526-627)", "soil_simulator/body_pos.cpp: CalcLinePos", "soil_simulator/body_pos.cpp: CalcBodyPos, bucket (lines 24-107) and blade (lines 130-255)"]}
{"id": "C53", "title": "The body in the grid is the body at the stored pose, and it stops the terrain", "statement": "After a call of Step that moved the body, and after any sequence of calls, the body layers of the grid are exactly the rasterised walls of the pose stored in the body: every bottom and every top is the one of a rasterised cell, every run of rasterised cells is inside of a layer, and nothing of the former poses remains. The stored pose is one of the given poses, and the later ones have all their corners less than half a cell away from it. In every column in which a wall lies, away from the sides of the column by a small margin, there is body and the terrain is below it.", "quantifier": "every grid, parameters, body, terrain, order of the random draws and sequence of poses that keep the body inside the grid", "why_tests_cant": "The tests look at the body after one call on an empty grid, and at the soil after a few calls; remains of former poses and skipped columns only show after particular sequences of poses.", "anchors": ["soil_simulator/soil_dynamics.cpp: Step (lines 61-119)", "soil_simulator/body_pos.cpp: CalcBodyPos, UpdateBody", "soil_simulator/intersecting_cells.cpp: MoveIntersectingCells", "soil_simulator/relax.cpp: RelaxTerrain, RelaxBodySoil"]}
{"id": "C54", "title": "The trajectories of the example program", "statement": "CalcTrajectory returns nn points of the parabola that starts in (x_i, z_i) and has its extremum in (x_min, z_min); the last one is the mirror image of the first, all the heights are between z_i and z_min, and the angle around Y is the one of the tangent minus the origin angle. The six corners of the body at a point are its joint, base and tip turned by that angle and moved to the point, half a width on each side. Its comment also says that the blade keeps its orientation, and the random arguments should keep the body in the grid. The first is false; the second is true for the bucket and false for the blade, although its default trajectory stays in the grid, and equal heights give NaN.", "quantifier": "all arguments with x_i different from x_min, and with x_min null or z_i different from z_min; every number of points; all draws in [0, 1] for the random bucket", "why_tests_cant": "No test calls CalcTrajectory: it is only in the example program, whose default arguments avoid the bad cases.", "anchors": ["test/example/soil_evolution.cpp: CalcTrajectory (lines 361-402), arguments (lines 51-94)"]}
{"id": "C55", "title": "The default run of the example program", "statement": "With the bucket of main.cpp and the default trajectory, the choice of the times never reads outside of its arrays and ends, every pose given to Step keeps the body inside the grid, and the whole simulation ends without undefined behaviour, in a state that passes CheckSoil, with no loss of soil unless a warning is written. The last pose is never given to Step, and a slow body makes the loop read before its arrays.", "quantifier": "every origin angle, initial terrain and order of the random draws; every body and trajectory for the last pose", "why_tests_cant": "The example is run by hand, with one seed, and its checks are warnings.", "anchors": ["test/example/soil_evolution.cpp: SoilEvolution (lines 33-344)", "test/example/main.cpp"]}
{"id": "C56", "title": "The terrain is never dug below the grid, and heights stay bounded", "statement": "After any number of calls of Step, no cell of the terrain is below the lower of the lowest initial terrain and the lowest level of the grid. The soil of one column, terrain and body soil together, never rises above that level by more than all the soil that was above it at the start.", "quantifier": "all legal states, poses, parameters and orders of the random draws; any number of steps", "why_tests_cant": "The depth is reached by a sequence of avalanches and of moves of soil that depends on random orders; tests check a few cells after one call.", "anchors": ["soil_simulator/relax.cpp: RelaxTerrain, RelaxUnstableTerrainCell", "soil_simulator/intersecting_cells.cpp: MoveIntersectingBody", "soil_simulator/soil_dynamics.cpp: Step"]}
{"id": "C57", "title": "What the Checks of the main loop answer", "statement": "When a Check follows each Step, as in the example program, the initial volume and all the counters of CheckVolume fit in an int, the loop ends, CheckSoil always answers true, and CheckVolume answers true until soil is first announced as removed and false from then on. As long as it answers true, the Checks change nothing in the simulation.", "quantifier": "all legal missions with an initial terrain of bounded height, in particular the default run of the example program with a terrain within 100 m of zero; all random draws", "why_tests_cant": "The answers of Check are dropped by the code: a run only shows warnings.", "anchors": ["soil_simulator/soil_dynamics.cpp: Check (lines 127-135)", "test/example/soil_evolution.cpp: SoilEvolution (lines 308-332)", "soil_simulator/utils.cpp: CheckVolume, CheckSoil"]}
{"id": "C58", "title": "The main loop and its files", "statement": "Writing the files of the main loop changes nothing in the simulation. If the numbers of the files do not run out, each turn of the loop leaves three new files, numbered in order, that hold the terrain, the soil of the body and the corners of the body after that turn, and no other file changes. The default run of the example program makes at most 5002 Steps and leaves all its files.", "quantifier": "any arithmetic, body, sequence of poses, values of check_outputs and write_outputs, and initial files that are numbered without gap; any initial terrain within 100 m of zero for the default run", "why_tests_cant": "The tests of WriteSoil and WriteBody write one file of one state; no test looks at the files of a run.", "anchors": ["test/example/soil_evolution.cpp: SoilEvolution (lines 317-332)", "soil_simulator/soil_dynamics.cpp: WriteOutputs (lines 137-146)", "soil_simulator/utils.cpp: WriteSoil, WriteBody"]}
{"id": "C59", "title": "The example program, from Init to its end", "statement": "Init returns, and writes in each cell the noise of that cell, a whole number of cells, with no rounding between the real numbers and the heights of the exact model. SoilEvolution ends whatever check_outputs and write_outputs are: without Checks, or if no soil is removed, in the state of the sequence of Steps; with Checks, removed soil is also reported by CheckVolume. At its end CheckSoil answers true, soil is missing if and only if a warning said that some was removed, and the terrain is nowhere below the bound of the initial noise: -5.63 m for the default run. With write_outputs, in a directory without files of a former run, the files are numbered from 0 without gap and the last ones hold the state at the end.", "quantifier": "every grid, amplitude and generator for Init; every sequence of poses that keeps the body inside of the grid, every state of the generator and every value of the options for SoilEvolution", "why_tests_cant": "The example program has no test; it draws its terrain and its trajectory, makes thousands of Steps, and its end depends on all of them.", "anchors": ["soil_simulator/soil_dynamics.cpp: Init (lines 18-59)", "test/example/soil_evolution.cpp: SoilEvolution (lines 97-335)", "test/example/main.cpp"]}
{"id": "C60", "title": "The Checks and the log are inert", "statement": "Step never reads the log: from two states that differ only by the log it gives the same state, draws the same random numbers and appends the same warnings. Neither do the Checks: they give the same answers, also when repeated. The main loop with check_outputs therefore ends in the same state, and writes the same files with the same contents, as without: only the warnings of CheckVolume and CheckSoil are missing, even when they report an error.", "quantifier": "any arithmetic, including the floating-point numbers of the program, any grid, geometry, parameters, state and sequence of poses; the loop with Checks ends (C57 says when)", "why_tests_cant": "It compares two executions of any length; tests run the program with one value of check_outputs and look at a few cells.", "anchors": ["soil_simulator/soil_dynamics.cpp: Step (lines 61-119), Check (lines 127-135)", "soil_simulator/utils.cpp: CheckVolume, CheckSoil (lines 236-488)", "test/example/soil_evolution.cpp: SoilEvolution (lines 306-335)"]}
{"id": "C61", "title": "What a Step reads of the state left by the previous one", "statement": "A Step that moves the body, with max_iterations_ of at least 1, does not read equilibrium_ and impact_area_: it sets them first, and with any values of these two members it gives the same outcome. A sequence of Steps from two states that differ only by them gives the same soil, records, body, areas, random numbers and warnings. relax_area_ is different: the Step reads the area left by the previous one, and the terrain depends on it.", "quantifier": "any arithmetic, grid, geometry, parameters with max_iterations_ at least 1, state and sequence of poses", "why_tests_cant": "It compares two executions from any pair of states; tests start from the states of the constructor.", "anchors": ["soil_simulator/soil_dynamics.cpp: Step (lines 61-119)"]}
