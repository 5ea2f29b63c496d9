# Formal model of soil_simulator: design and trusted base

Everything is in `rocq/theories` (Coq 8.16.1, flag `-Q theories Verif`). The properties
are in `properties.jsonl`, their status and theorems in `MANIFEST.json`, the experiments
with wrong programs in `seeded/LOG.jsonl` (each wrong program was built with `make -k`;
`first_failing_lemmas` is what the build reported, `theorems_failed` the theorems whose
proofs use one of these lemmas, found by name; demos are not counted. The last 33 entries are
different: only the files that the claim needs were compiled, file by file. Each failing lemma
was admitted in the copy, and `Print Assumptions` gave the theorems that use it;
for the very last, only the two evaluations in the proof were run). `tools/` holds the scripts that generate
`MANIFEST.json` and the `Test*.v` files; nothing in `tools/` is used by the build.

| files | content |
|---|---|
| `Outcome.v`, `Num.v`, `State.v`, `Flt.v`, `FltR.v`, `FltB.v` | results of calls, arithmetic, data |
| `Model*.v` | the code, function by function, with the lines of `/repo` it models; no proofs |
| `Spec.v`, `Spec2.v`, `SpecGeo.v`, `SpecSafe.v`, `SpecBinary.v`, `SpecNoise.v`, `SpecHole.v`, `SpecShown.v`, and the definitions at the head of the `*Proofs.v`/`*Claims.v` files named in the statements | vocabulary of the properties |
| `*Proofs.v`, `*Claims.v`, `*Lemmas.v`, `Base.v`, … | proofs |
| `Demo*.v`, `Refuted.v` | concrete grids, bodies, runs |
| `Properties*.v` | the theorems of `MANIFEST.json`, each with `Print Assumptions` and a concrete case |
| `Test*.v` | the unit tests of `/repo/test/unit_tests`, translated and computed on the model: 712 tests of the soil half with exact heights and again in binary32 (`TestBinary32.v`), 118 tests of constructors, quaternions, rasterisation and carried soil in binary32 |

## 1. Shape of the model

The code has two halves that meet only through cells (integers) and heights.

* **Soil half**: relaxation, intersecting cells, soil carried by the body, body layers,
  self-checks, Step, Init, shuffles. It adds, subtracts, compares and rounds heights to
  the vertical cell size. It is written once over a record of height operations
  (`Num`, no laws). Theorems on control flow, frames, status codes and areas hold for
  *every* such record, binary32 included. Theorems on amounts of soil use the exact
  instance `ZNum`: a height is an integer number of *ticks* (any length that divides the
  cell height, the tolerance and the initial heights; every finite binary32 number is a
  multiple of 2^-149 m).
* **Geometry half**: constructors, quaternions, normals, corners, movement test,
  rasterisation of lines, rectangles, triangles, bucket and blade, placement of carried
  soil, noise. It is written once over a record of float/double operations (`flt`, no
  laws), with two instances: `FltR` (real numbers, no rounding) and `FltB` (binary32 and
  binary64 of the standard library `SpecFloat`, with NaN and infinities).
* **Files** (`ModelFiles.v`): `WriteSoil`, `WriteBody`, over a map from names to contents.
* **Whole program** (`ModelWhole.v`): the soil half over `ZNum` driven by the geometry
  half over `FltR`. The hypotheses that the theorems of `PropertiesStep.v` make on the
  geometry (`geom_ok`) are *proved* of it in `WholeProofs.v`, so the theorems of
  `PropertiesWhole.v` start from constructor arguments and end after any sequence of
  calls of Step.
* **Program in one arithmetic** (`ModelProgram.v`): both halves over the same `flt`, from
  the constructors through Init to the last Step. Over `FltB` it is the program with its
  roundings, and it runs in the kernel (`DemoB.v`).

`PropertiesStep.v` quantifies over all geometries that meet `geom_ok`, hence also over
whatever a rounding geometry computes as long as its cells stay in the grid.

### Undefined behaviour
A call returns `Ok v`, `UB reason` (access out of the range of a vector, use of an unset
variable, conversion of a float to an int that cannot hold it, overflow of an int) or
`OutOfFuel` (only for loops without a syntactic bound; C07 gives a sufficient fuel).
Nothing is made total silently; where an access is not checked by the model a comment
says why it is in range.

### Randomness
The global generator is a stream of naturals; a draw of `uniform_int_distribution(0, n)`
is the next element modulo n+1. Theorems quantify over all streams, hence over every
sequence of draws.

### Log
`LOG(WARNING)` appends to a list in the state. Texts are not modelled, only which warning.

## 2. What is modelled

| code | model | remarks |
|---|---|---|
| types.cpp Grid, Body, SimParam | `ModelTypes.v` | order of the checks, `Throws n` is the n-th throw |
| types.cpp SimOut | `State.v` `new_sim` | |
| utils.cpp 20-234 | `ModelGeometry.v` | vectors have exactly 3 or 4 entries |
| utils.cpp 239-488 CheckVolume, CheckSoil | `ModelUtils.v` | with the int counters |
| utils.cpp 492-698 WriteSoil, WriteBody | `ModelFiles.v` | printing of a number is a parameter |
| utils.cpp 703-771 simplex_noise | `ModelNoise.v` | all accesses checked |
| body_pos.cpp 22-841 | `ModelRaster.v` | bucket, blade, rectangle, triangle, line; accesses and casts checked |
| body_pos.cpp 847-1024 | `ModelBodyPos.v` | |
| body_soil.cpp | `ModelBodySoil.v`, `move_cell` of `ModelGeometry.v` | |
| intersecting_cells.cpp | `ModelIntersect.v` | |
| relax.cpp | `ModelRelax.v`, `dh_max` of `ModelTypes.v` | |
| soil_dynamics.cpp | `ModelStep.v`, `ModelNoise.v` (`cell_noise`), `ModelFiles.v`, `ModelWhole.v`, `ModelProgram.v` | |
| test/example/soil_evolution.cpp, main.cpp | `ModelExample.v` | trajectories, times and poses; a negative number of points is not modelled; `std::atan2` is an argument |
| soil_dynamics.cpp 127-135 Check, test/example/soil_evolution.cpp 308-332 | `ModelCheckLoop.v` | the loop with check_outputs and without write_outputs; the answers of the Checks, which the code drops, are kept |
| soil_dynamics.cpp 137-146 WriteOutputs, the same loop | `ModelOutputs.v` | with any value of check_outputs and write_outputs |
| soil_dynamics.cpp 18-59 Init over the reals, test/example/soil_evolution.cpp 97-335 | `ModelEvolution.v` | from the trajectory to the end; the generator and the warnings before Init are arguments |

Where the model differs from the code:
* `std::sort` of cells is a sort of the model proved to return a sorted permutation; equal
  cells are indistinguishable, so the result is the same.
* A pose is a vector of 3 and a quaternion of 4 numbers: calls with vectors of other
  sizes are not modelled.
* `body_[k][i][j]` are functions of three integers; every access is guarded by the size
  of the vectors.
* In `FltR`, x / 0 = 0, where the code gets an infinity or NaN. The theorems over `FltR`
  either exclude it (the quaternion is not null, the triangle is not flat) or say that the
  result does not matter (C40_vertical: a vertical wall marks no inner cell). What the
  code does in those cases is in C29 and C38_first_step, over `FltB`.
* sin, cos and tan over the reals are those of the standard library; over `FltB` they are
  parameters.
* `FltB` evaluates each operation in its type (FLT_EVAL_METHOD 0) and contracts nothing
  (no fused multiply-add).
* In `ModelWhole.v` the height of carried soil, a real number, is rounded to ticks by an
  arbitrary function; `C27_exact_ticks` gives one that changes no comparison.

## 3. What is not modelled
* Rounding of binary32 in the quantitative theorems on soil, except C50, and on rigid
  motions. It is in the model (`FltB`, `ModelProgram.v`); C29, C38_first_step, C47, C48 and
  C50 are about it.
* `std::mt19937` and the distribution of the draws.
* Allocation failure, glog, errors of the file system other than "the file exists", what
  `<<` prints for a float, the texts of exceptions and warnings.
* Concurrent calls.
* The caller passing a Grid, SimOut and Body that do not belong together.
* The benchmarks of `/repo/test`; the logging of the example program.

## 4. Properties
"Exact" is `ZNum` for the soil and `FltR` for the geometry; "any" is any record of
operations. `…_refuted` theorems are counterexamples, kept because the claim is one that a
user could believe.

| id | how |
|----|-----|
| C01, C02, C03 | exact. One invariant (`state_ok`) kept by each phase of Step, sum over the grid, induction over the calls; then `…_whole` with the geometry of the code |
| C04, C05 | any. Unfolding, induction over the calls; `…_whole` adds the distance of the corners |
| C06, C07 | exact. Same invariant, explicit `UB` and fuel; `…_whole` |
| C08, C09 | any and exact. Induction over the rounds |
| C10 | any. Pointwise frame of each phase |
| C11, C12, C13, C14 | exact. Invariant; also in the middle of Step (`…phases…`) |
| C15, C18 | exact. Arithmetic on one avalanche |
| C16 | exact. The sum of the squares of the heights decreases; refuted when no slope is allowed |
| C17 | any order relation; meaning of each code exact |
| C19, C20, C21 | exact. Intervals, induction over the list of cells; a body cell on the border stays (refuted form) |
| C22 | any |
| C23, C24 | exact. Equivalence with an independent predicate |
| C25 | shuffle: permutation, every order reachable |
| C26, C27 | exact. Induction over the records; the wall chosen is the first close one, else the closest. Any arithmetic: where the soil goes, order of the search |
| C28, C30, C31 | exact. Equivalence with a condition on the arguments |
| C29 | binary32. NaN and infinite arguments, and what Step then does |
| C32 | exact |
| C33–C37 | exact. Ring identities |
| C38 | exact, and binary32 for the first Step |
| C39 | exact. Loop invariant; two refuted forms (points on, or less than 1e-10 above, a border) |
| C40, C41 | exact for coefficients, bounds and corners, any for the arrays |
| C42 | any noise; noise function exact with all its accesses |
| C43, C44 | any set of files, any printed text without separators. `FilesFull.v`: a directory without a free number, by induction on the states written |
| C45, C46 | concrete runs (refuted claims) |
| C47 | any. A smaller invariant (`memory_ok`: codes, positions, no heights) kept by each phase; instance binary32, with a checker for the hypothesis on the poses |
| C48 | binary32. A run of three Steps computed by the kernel (refuted claim) |
| C49 | exact. Every cell that changes is two cells inside of the next area; induction over the rounds, then over the calls of Step (`RestLater.v`): what is steep outside of the areas is within two cells of the body. Refuted for the cells of index 1, and for a body taken away before an equilibrium |
| C50 | binary32. The program and the exact program run side by side (`Lock*.v`): each phase keeps a relation that says that the heights are the same numbers; the bounds that keep every sum exact come from the total of soil. The operations of `SpecFloat` are related to real numbers by Flocq (`FloatBase.v`) |
| C51 | exact. The lattice points at a squared distance below 1/2 are among the three corners of the code: a case analysis on the skewed cell; then bounds on one bump |
| C52 | exact. From a point of the wall towards the corners of its column: either the segment leaves the wall inside of the column, and the line of that edge has a cell there, or the whole column is under the wall, and one of its corners is far enough from the edges to be kept by the inner loop (`HolePlane.v`). The displaced corners are parallelograms up to 20 tol² times the size |
| C53 | exact. The phases of Step after CalcBodyPos do not touch the body (C10, C26), so C21 carries to the end of Step; a call that does not move the body keeps the pose and the grid. With C11 and C52: every column of a wall holds body above the terrain |
| C54 | exact. The three coefficients are those of the parabola (`field`); NaN by computation in binary32, for every number of points. C54_random_bucket_stays: the points are bounded by the ends of the parabola and a corner is no further from its point than from the axis of the rotation (`ExampleRandom.v`); C54_default_blade_stays in the same way (`ExampleBlade.v`). C54_corners: the corners of any body drawn in the plane XZ |
| C55 | exact. Invariant of the loop over the times: the step is between two intervals of the trajectory and 0.2 s, because consecutive corners are close (`turn_near`, `atan_near`) and the joint goes forward (`ExampleLoop.v`); then the poses meet `mission` (`ExampleRun.v`) and C01, C03 and C07 apply. C55_default_times: X is linear in time and the blend of two points of a parabola differs from it by a second difference (`ExampleTimes.v`) |
| C56 | exact. Terrain is lowered only to the bottom of a body, which is a level of the grid, or by a relaxation that stops above the lower neighbour: each phase keeps the bound (`FloorProofs.v`). C56_above: with the terrain above that level and no soil created (C01), one column cannot hold more than the sum of all of them (`HeightProofs.v`) |
| C57 | exact. The depth of C56 and the total of C01 bound the int counters of CheckVolume, so every Check is defined; C02 and C03 give its answers; the total never grows, so an answer false is followed only by answers false (`CheckLoopProofs.v`) |
| C58 | any arithmetic. Induction over the poses; one WriteOutputs takes the first free number of each kind of file, and names of different kinds differ (`OutputProofs.v`). C58_default: exact, from C57_default and a bound on the number of times (`OutputClaims.v`) |
| C59 | exact. The heights of Init are whole numbers of cells (C51), so the real numbers and the ticks agree, and Init is the `init` of the other claims for one noise function; the bound of C51 for amplitude 32 meets the hypothesis of C57. One induction over the loop, with Checks and files, keeps the invariant, the depth and the balance (`EvolutionProofs.v`); C57 and C58 give the Checks and the files |
| C60 | any arithmetic. Each function of the soil half commutes with a change of the log (`LogProofs.v`, function by function); two changes are used, a longer prefix and the removal of the warnings of Check, after which the Checks are the identity (`LogClaims.v`); the Checks commute with a longer prefix (`LogAgain.v`) |
| C61 | any arithmetic. The functions before the relaxation commute with a change of the two members (`FlagProofs.v`, function by function, as for C60), and the first round sets both |

## 5. Defects of the code found on the way
* A new body has the null quaternion; the first call of Step works because every
  comparison with NaN is false (C38_first_step).
* A null or NaN quaternion, and three points on a line, are accepted and lead to a
  conversion of NaN to int (C29_quaternion, C30_line_accepted).
* Constructors accept NaN (C29_*).
* A body cell on the border of the grid is never erased (C21_old_body_forgotten_refuted).
* A grid whose height is not a whole number of cells loses soil without warning
  (C45_misaligned_grid_refuted).
* `dist_s = 2 * half_length_z_` compares a number of cells with metres
  (body_soil.cpp:120, C27).
* With a null repose angle the relaxation never ends before max_iterations_
  (C16_…_refuted); a round that changes nothing may still report no equilibrium (C46).
* The index of the centre of a cell may be the next cell when the size of the grid is an
  odd number of half cells (C36_index_refuted).
* CalcLinePos may miss the last cell (C39_…_refuted).
* The body-soil file is overwritten when it exists and the terrain file does not
  (C43_body_soil_overwritten_refuted), and once the 100000 numbers are taken every state is
  written over the last one (C43_full_directory_refuted).
* The relaxation starts from the area left by the previous Step, so that the terrain depends
  on it (C61_relax_area_refuted).
* In binary32 the total of soil drifts without a warning (C48); a cell height that is a
  power of two avoids it (C50).
* The cells of index 1 leave the relaxed area after one round, so that soil piled there
  stays (relax.cpp:129-136, C49_first_row_refuted).
* A body moved far away before an equilibrium leaves soil that is not looked at again,
  and the next equilibrium is reported with it (C49_unsettled_jump_refuted).
* In the example program: the last pose is not simulated (C55_last_pose_left_out), a slow body
  makes it read before its arrays (C55_slow_body_refuted), a random blade may have NaN heights or
  leave the grid, and the blade turns although the comment says it does not (C54_*_refuted). Its
  interpolation takes the point after the time and the next one, so that it extrapolates.
* simplex_noise reads before its table for negative arguments (C42_any_point_refuted).

## 6. Trusted base
* The kernel of Coq 8.16.1 (including its virtual machine, used for concrete runs).
* That the model is the code: sections 1–3, the comments of `Model*.v`; checked by the
  translated unit tests `Test*.v`.
* That the statements say what the properties say.
* Axioms: those of the standard library below, no other.

`Print Assumptions` says "Closed under the global context" for every theorem of
`PropertiesStep.v`, `PropertiesParts.v`, `PropertiesFloat.v`, `PropertiesProgram.v`, for
those of `PropertiesRest.v` except C49_whole and C49_whole_run, for those of
`PropertiesFiles.v` except C42_noise_in_range, C42_init_noise and C42_any_point_refuted,
for C53_step and C53_run, for C56_run, C56_above, C57_check and C57_run, for C58_writing_is_silent, C58_loop and C58_files, for C60_log, C60_check, C60_check_again and C60_checks, for the C61 theorems, for C54_flat_refuted and C55_last_pose_left_out, for C40_arrays and C40_filled of `PropertiesGeometry.v`, and for C08_program of
`PropertiesNoise.v`.

For C27_exact_ticks it lists
* `ClassicalDedekindReals.sig_forall_dec`
* `FunctionalExtensionality.functional_extensionality_dep`

and for all the others (the three C42 theorems above, C49_whole, C49_whole_run, C54_corners, C55_rule,
`PropertiesGeometry.v`, `PropertiesWhole.v`, `PropertiesHoles.v`, C53_whole, C53_bucket and C53_blade, C56_whole, C56_above_whole and C57_whole, C59_init, C59_any_noise, C59_whole and C59_files, C60_evolution, and the C51 theorems and C50_same_geometry of
`PropertiesNoise.v`) these two and
* `ClassicalDedekindReals.sig_not_dec`.

For those of `PropertiesBinary.v`, C28_binary32, C57_default, C58_default, C59_default, C60_default and the other theorems of
`PropertiesExample.v` except C54_corners and C55_rule it lists these three and
* `Classical_Prop.classic`

used by Flocq, which adds no axiom of its own, and by the arctangent of the standard library.

The first three are the axioms of the real numbers of the standard library.
