(** Properties of the noise of Init, and of the two models of the geometry. Statements
    only; the proofs are in NoiseSum.v and AgreeProofs.v. *)
From Coq Require Import Reals ZArith List Bool.
From Coq Require Import Floats.SpecFloat.
From Verif Require Import Outcome Num State ModelBodySoil ModelBodyPos ModelStep Spec Spec2
  Flt FltB FltR ModelTypes ModelGeometry ModelUtils ModelNoise ModelProgram ModelWhole SpecGeo TypesProofs SpecNoise SpecBinary
  StructProofs NoiseProofs NoiseSum FloatProofs AgreeProofs GeoClaims Demo DemoB.
Import ListNotations.
Open Scope R_scope.

(** ** C51 *)
(** The code looks at the three corners of the triangle that holds the point; the result
    is the sum over all the points of the lattice. *)
Theorem C51_noise_is_a_sum :
  forall x y table v l, simplex_noise (K := FltR) x y table = Ok v ->
  covers x y l -> v = sum (bump table x y) l.
Proof. exact noise_sum. Qed.
Print Assumptions C51_noise_is_a_sum.
Example C51_example :
  let table := map Z.of_nat (seq 0 256) in
  exists v l, simplex_noise (K := FltR) (/ 4) (/ 8) table = Ok v /\ covers (/ 4) (/ 8) l /\
    In (0, 0)%Z l /\ bump table (/ 4) (/ 8) (0, 0)%Z <> 0.
Proof. exact noise_sum_example. Qed.

(** Every point has such a list. *)
Theorem C51_covers : forall x y, exists l, covers x y l /\ length l = 3%nat.
Proof. exact covers_exist. Qed.
Print Assumptions C51_covers.

Theorem C51_noise_bound :
  forall x y table v, simplex_noise (K := FltR) x y table = Ok v -> Rabs v <= 3 / 16.
Proof. exact noise_small. Qed.
Print Assumptions C51_noise_bound.

(** No conversion nor sum of the coordinates of the cell overflows. *)
Theorem C51_no_overflow :
  forall x y table v, simplex_noise (K := FltR) x y table = Ok v ->
  forall z, z = x \/ z = y ->
  -2147483648 <= z + (x + y) * (sqrt 3 - 1) / 2 < 2147483647.
Proof. exact noise_overflow. Qed.
Print Assumptions C51_no_overflow.

(** The heights written by Init: four octaves of the noise of the position of the cell
    scaled to [0, 1], rounded to a multiple of the cell height. *)
Theorem C51_init_heights :
  forall sx sy sz cxy cz g amp table i j h l,
  rnew_grid sx sy sz cxy cz = Built g ->
  (0 <= i <= 2 * g_half_x g)%Z -> (0 <= j <= 2 * g_half_y g)%Z ->
  let x := IZR i * cxy / (2 * sx) in
  let y := IZR j * cxy / (2 * sy) in
  (forall f, In f [1; 2; 4; 8] -> covers (f * x) (f * y) (l f)) ->
  cell_noise (K := FltR) g amp table i j = Ok h ->
  exists n, h = cz * IZR n /\
    Rabs (amp * sum (fun f => / (2 * f) * sum (bump table (f * x) (f * y)) (l f)) [1; 2; 4; 8] - h)
      <= cz / 2.
Proof. exact init_heights. Qed.
Print Assumptions C51_init_heights.
Example C51_heights_example :
  rnew_grid 4 4 4 (/ 10) (/ 10) = Built demo_g /\ (0 <= 13 <= 2 * g_half_x demo_g)%Z /\
  (0 <= 7 <= 2 * g_half_y demo_g)%Z /\
  (exists l, forall f, In f [1; 2; 4; 8] ->
     covers (f * (IZR 13 * / 10 / (2 * 4))) (f * (IZR 7 * / 10 / (2 * 4))) (l f)) /\
  exists h, cell_noise (K := FltR) demo_g 20 (map Z.of_nat (fst (perm_table demo_rng))) 13 7 = Ok h.
Proof. exact init_heights_example. Qed.

(** They are multiples of the cell height, below 0.18 times the
    amplitude, up to half a cell. *)
Theorem C51_init_bound :
  forall (g : ggrid FltR) amp table i j h, 0 < g_cell_z g ->
  cell_noise (K := FltR) g amp table i j = Ok h ->
  exists n, h = g_cell_z g * IZR n /\
    Rabs h <= 45 / 256 * Rabs amp + g_cell_z g / 2.
Proof. exact cell_noise_small. Qed.
Print Assumptions C51_init_bound.

Theorem C51_flat :
  forall (g : ggrid FltR) table i j h, 0 < g_cell_z g ->
  cell_noise (K := FltR) g 0 table i j = Ok h -> h = 0.
Proof. exact cell_noise_flat. Qed.
Print Assumptions C51_flat.
(** A grid of 4 x 4 x 4 and a permutation: the call succeeds. *)
Example C51_init_example :
  0 < g_cell_z demo_g /\
  exists h, cell_noise (K := FltR) demo_g 20 (map Z.of_nat (fst (perm_table demo_rng))) 1 1 = Ok h.
Proof. exact init_bound_example. Qed.

Open Scope Z_scope.

(** ** C28, in binary32 *)
(** The sizes of a grid that was built are finite and positive. *)
Theorem C28_binary32 :
  forall sx sy sz cxy cz g,
  Forall (fun a => valid_binary 24 128 a = true) [sx; sy; sz; cxy; cz] ->
  new_grid (K := FltB) sx sy sz cxy cz = Built g ->
  Forall (fun a => finite32 a /\ 0 < ticks32 a) [sx; sy; sz; cxy; cz].
Proof. exact grid_positive. Qed.
Print Assumptions C28_binary32.
Example C28_binary32_example :
  Forall (fun a => valid_binary 24 128 a = true) [slit 4 0; slit 4 0; slit 4 0; slit 1 1; slit 1 1] /\
  exists g, new_grid (K := FltB) (slit 4 0) (slit 4 0) (slit 4 0) (slit 1 1) (slit 1 1) = Built g.
Proof.
  split; [repeat constructor|]. destruct float_grid as (g & E & _). exists g. exact E.
Qed.

(** ** C08, for the program *)
Theorem C08_program :
  forall (K : flt) k (g : ggrid K) b tan prm tol lines fuel p s old w',
  let G := program k g b tol (cell_buffer prm) lines in
  let P := soil_params tan g prm tol in
  0 <= max_iterations prm ->
  step G (soil_grid g) P fuel p (s, old) = Ok (w', true) ->
  exists s1 n, equilibrium s1 = false /\ Z.of_nat n <= max_iterations prm /\
    rounds G (soil_grid g) P p n s1 (fst w') /\
    (Z.of_nat n = max_iterations prm \/ equilibrium (fst w') = true).
Proof. exact @program_rounds. Qed.
Print Assumptions C08_program.
Example C08_program_example :
  exists g b prm p s old w', 0 <= max_iterations prm /\
  step (program (K := FltB) ABucket g b (slit 1 5) (cell_buffer prm) 1000) (soil_grid g)
    (soil_params demoB_tan g prm (slit 1 5)) 1000 p (s, old) = Ok (w', true).
Proof.
  destruct (summary_inv _ _ _ _ demoB_summary) as (s & p & E & L & _).
  apply (simulate_moves demoB_pi demoB_tan 1000 1000 demoB_rng demoB s p); [exact E|].
  intros N. rewrite N in L. discriminate L.
Qed.

(** ** The geometry of the two models *)
(** Over the real numbers, ModelProgram.v (the model run in binary32) and ModelWhole.v
    (the model of the theorems about whole executions) use the same geometry. *)
Theorem C50_same_geometry :
  forall t to_ticks (g : ggrid FltR) (b : gbody FltR) tol buffer lines k,
  let G := program (K := FltR) k g b tol buffer lines in
  let W := ModelWhole.whole t to_ticks g b (raster_of (kind_of k) g tol lines buffer b) in
  (forall old new, g_moved G old new = g_moved W (Some old) (Some new)) /\
  (forall p i j z, g_frame G p i j (metres t z) = g_frame W (Some p) i j z) /\
  (forall p, g_raster G p = g_raster W (Some p)) /\
  (forall old new x r, g_reloc G old new x = Ok r ->
     g_reloc W (Some old) (Some new) x =
     Ok (mkReloc (A := ZNum (wunits t)) (r_sx r) (r_sy r) (r_xmain r) (r_i r) (r_j r)
           (to_ticks (r_z r)))) /\
  (forall old new x u, g_reloc G old new x = UB u ->
     g_reloc W (Some old) (Some new) x = UB u).
Proof. exact program_whole. Qed.
Print Assumptions C50_same_geometry.
