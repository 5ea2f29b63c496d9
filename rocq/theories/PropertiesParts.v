(** Properties of the parts of Step. Statements only; the proofs are in the other
    files. [A : Num] is any arithmetic, with no law assumed (binary32 included);
    [ZNum upm] is the exact one.

    The concrete cases are in PartsFacts.v and Refuted.v. *)
From Coq Require Import ZArith List Bool Permutation Sorted.
From Verif Require Import Outcome Num State Base Spec InvBase ModelRelax RelaxBase
  ModelIntersect ModelBodySoil ModelBodyPos BodyPosProofs BodySoilProofs ModelUtils ModelStep
  Spec2 StepProofs CheckProofs StructProofs EquilibriumProofs StatusProofs AvalancheProofs
  PairProofs AreaProofs InitProofs RunProofs CodesProofs StuckProofs PropLemmas Demo DemoFacts
  Refuted PartsFacts BodySoilAny.
Import ListNotations.
Open Scope Z_scope.

(** ** C09: meaning of equilibrium_ *)
Theorem C09_terrain_equilibrium :
  forall (upm : units) (frame : Z -> Z -> Z -> Pos (ZNum upm)) (g : grid_t (ZNum upm)) dh tol
    cell_buffer s s',
  relax_terrain (A := ZNum upm) frame g dh cell_buffer tol s = Ok s' ->
  equilibrium s' = true ->
  untouched s s' /\
  forall i j d, in_area (impact_area s) i j -> beside d ->
    ~ terrain_falls dh tol s' i j (i + fst d) (j + snd d).
Proof.
  intros upm frame g dh tol cb s s' E Q.
  destruct (relax_terrain_equilibrium frame g dh tol cb s s' E Q) as [U S].
  split; [exact U|]. intros i j d Hij Hd. apply beside_directions4 in Hd. auto.
Qed.
Print Assumptions C09_terrain_equilibrium.

Theorem C09_body_soil_equilibrium :
  forall (upm : units) (frame : Z -> Z -> Z -> Pos (ZNum upm)) (g : grid_t (ZNum upm)) dh tol s s',
  relax_body_soil (A := ZNum upm) frame g dh tol s = Ok s' ->
  equilibrium s' = true ->
  equilibrium s = true /\ untouched s s' /\
  forall e d, In e (records s') -> tol <= (e_h e : Z) -> beside d ->
    ~ record_falls dh tol s' e (e_i e + fst d) (e_j e + snd d).
Proof.
  intros upm frame g dh tol s s' E Q.
  destruct (relax_body_soil_equilibrium frame g dh tol s s' E Q) as (U1 & U2 & S).
  split; [exact U1|]. split; [exact U2|]. intros e d He Hh Hd.
  apply beside_directions4 in Hd. auto.
Qed.
Print Assumptions C09_body_soil_equilibrium.

(** Whatever the arithmetic. *)
Theorem C09_terrain_equilibrium_any :
  forall (A : Num) frame (g : grid_t A) dh_max tol cell_buffer s,
  partial (relax_terrain frame g dh_max cell_buffer tol s) (fun s' =>
    equilibrium s' = true ->
    untouched s s' /\
    forall i j, in_area (impact_area s) i j ->
      unstable_candidate dh_max tol s i j = Ok false \/
      forall d, beside d -> still dh_max tol s (i, j) d).
Proof.
  intros A frame g dh tol cb s. eapply partial_weaken; [apply relax_terrain_quiet|].
  intros s' H Q. destruct (H Q) as [U S]. split; [exact U|]. intros i j Hij.
  destruct (S i j Hij) as [C|C]; [auto|right]. intros d Hd. apply beside_directions4 in Hd. auto.
Qed.
Print Assumptions C09_terrain_equilibrium_any.

Theorem C09_body_soil_equilibrium_any :
  forall (A : Num) frame (g : grid_t A) dh_max tol s,
  partial (relax_body_soil frame g dh_max tol s) (fun s' =>
    equilibrium s' = true ->
    equilibrium s = true /\ untouched s s' /\
    forall e, In e (records s) -> fltb (e_h e) tol = false ->
      forall d, beside d -> rec_still dh_max tol s e d).
Proof.
  intros A frame g dh tol s. eapply partial_weaken; [apply (relax_body_soil_quiet frame g dh tol 0 s)|].
  intros s' H Q. destruct (H Q) as (U1 & U2 & S). split; [exact U1|]. split; [exact U2|].
  intros e He Hh d Hd. apply beside_directions4 in Hd. auto.
Qed.
Print Assumptions C09_body_soil_equilibrium_any.
(** See [C09_example] in PropertiesStep.v: a call of Step that ends at equilibrium. *)

(** ** C10: the body is never moved *)
Theorem C10_relax_terrain_keeps_body :
  forall (A : Num) frame (g : grid_t A) dh_max tol cell_buffer s,
  partial (relax_terrain frame g dh_max cell_buffer tol s) (only_in (around (impact_area s)) s).
Proof. exact @relax_terrain_only. Qed.
Print Assumptions C10_relax_terrain_keeps_body.

Theorem C10_relax_body_soil_keeps_body :
  forall (A : Num) frame (g : grid_t A) dh_max tol s,
  partial (relax_body_soil frame g dh_max tol s) (only_in (around_records (records s)) s).
Proof. exact @relax_body_soil_only. Qed.
Print Assumptions C10_relax_body_soil_keeps_body.

Theorem C10_move_intersecting_cells_keeps_body :
  forall (A : Num) frame (tol : F A) fuel s,
  partial (move_intersecting_cells frame tol fuel s) (only_in anywhere s).
Proof. exact @move_intersecting_cells_only. Qed.
Print Assumptions C10_move_intersecting_cells_keeps_body.
(** See [C11_example] in PropertiesStep.v. *)

(** ** C15: a pair of columns without body *)
(** [a], [b]: the heights before; [a'], [b']: after. For any heights at all. *)
Theorem C15_pair_slope :
  forall (upm : units) (frame : Z -> Z -> Z -> Pos (ZNum upm)) (g : grid_t (ZNum upm)) dh tol
    (s s' : sim (ZNum upm)) i j d,
  0 < (cell_z g : Z) -> beside d ->
  (forall k, layer k -> ~ body_at s k (i + fst d) (j + snd d)) ->
  relax_terrain_dir (A := ZNum upm) frame g dh tol i j d s = Ok s' ->
  let a : Z := terrain s i j in
  let b : Z := terrain s (i + fst d) (j + snd d) in
  let a' : Z := terrain s' i j in
  let b' : Z := terrain s' (i + fst d) (j + snd d) in
  (s' = s /\ a - dh <= b + tol) \/
  (b + tol < a - dh /\ a' + b' = a + b /\ aligned (cell_z g) a' /\
   dh + 2 * tol - 2 * (cell_z g : Z) < a' - b' <= dh + 2 * tol /\
   2 * (a' - a) < tol /\ 2 * (b - b') < tol).
Proof.
  intros upm frame g dh tol s s' i j d H Hd. apply beside_directions4 in Hd.
  exact (pair_slope frame g dh tol s s' i j d H Hd).
Qed.
Print Assumptions C15_pair_slope.

(** For heights that are multiples of the cell height: the higher column sinks, the
    lower one rises. *)
Theorem C15_pair_slope_aligned :
  forall (upm : units) (frame : Z -> Z -> Z -> Pos (ZNum upm)) (g : grid_t (ZNum upm)) dh tol
    (s s' : sim (ZNum upm)) i j d,
  0 < tol -> 2 * tol < (cell_z g : Z) -> aligned (cell_z g) dh -> beside d ->
  (forall k, layer k -> ~ body_at s k (i + fst d) (j + snd d)) ->
  aligned (cell_z g) (terrain s i j) ->
  aligned (cell_z g) (terrain s (i + fst d) (j + snd d)) ->
  relax_terrain_dir (A := ZNum upm) frame g dh tol i j d s = Ok s' ->
  let a : Z := terrain s i j in
  let b : Z := terrain s (i + fst d) (j + snd d) in
  let a' : Z := terrain s' i j in
  let b' : Z := terrain s' (i + fst d) (j + snd d) in
  (s' = s /\ a - dh <= b) \/
  (b < a - dh /\ a' + b' = a + b /\ aligned (cell_z g) a' /\ aligned (cell_z g) b' /\
   dh - (cell_z g : Z) <= a' - b' <= dh /\ a' < a /\ b < b').
Proof.
  intros upm frame g dh tol s s' i j d H1 H2 H3 Hd. apply beside_directions4 in Hd.
  exact (pair_slope_aligned frame g dh tol s s' i j d H1 H2 H3 Hd).
Qed.
Print Assumptions C15_pair_slope_aligned.

(** Without that, the higher column may rise (by less than half the tolerance). *)
Theorem C15_higher_column_never_rises_refuted :
  exists dh tol (g : grid_t N) (s s' : sim N),
  0 < tol /\ 2 * tol < (cell_z g : Z) /\ aligned (cell_z g) dh /\
  (forall k i j, (body s k i j : Z) = 0) /\
  relax_terrain_dir (A := N) (fun _ _ _ => (0, 0, 0)) g dh tol 1 1 (1, 0) s = Ok s' /\
  (terrain s 1 1 : Z) < (terrain s' 1 1 : Z).
Proof. exact pair_rise_refuted. Qed.
Print Assumptions C15_higher_column_never_rises_refuted.

Example C15_example : exists s',
  good (upm := zunits 100) demo_near (cell_z demo_grid) (g_frame demo_geom (-1)) (fst demo_start)
    (records (fst demo_start)) /\
  inside (fst demo_start) 6 4 /\ beside (1, 0) /\
  relax_terrain_dir (A := N) (g_frame demo_geom (-1)) demo_grid 10 1 6 4 (1, 0) (fst demo_start) = Ok s' /\
  (terrain (fst demo_start) 6 4 : Z) = 100 /\ (terrain (fst demo_start) 7 4 : Z) = 10 /\
  (terrain s' 6 4 : Z) = 60 /\ (terrain s' 7 4 : Z) = 50 /\
  forall k, layer k -> ~ body_at (fst demo_start) k 7 4.
Proof. exact hill_falls. Qed.

(** ** C16: convergence *)
Theorem C16_relaxation_converges :
  forall (upm : units) (G : geom (ZNum upm)) (g : grid_t (ZNum upm)) P p,
  params_ok g P -> (cell_z g : Z) <= (p_dh_max P : Z) ->
  forall s, bare g s -> sized g s ->
  within_grid g (body_area s) -> within_grid g (relax_area s) -> equilibrium s = false ->
  forall n, (Z.to_nat (squares s) < n)%nat ->
  exists s', relax_loop G g P p n s = Ok s' /\ equilibrium s' = true /\
    at_rest P s' /\ bare g s' /\ total_soil s' = total_soil s.
Proof. exact @relax_converges. Qed.
Print Assumptions C16_relaxation_converges.

(** With no allowed slope: for every order of the cells and every number of rounds. *)
Theorem C16_converges_without_slope_refuted :
  exists (g : grid_t N) (start : rng_t -> sim N), grid_ok g /\
  forall r, bare g (start r) /\ sized g (start r) /\
    within_grid g (body_area (start r)) /\ within_grid g (relax_area (start r)) /\
    equilibrium (start r) = false /\
    forall n, exists P s', params_ok g P /\ (p_dh_max P : Z) = 0 /\ p_max_iterations P = n /\
      relax_loop (A := N) demo_geom g P 0 n (start r) = Ok s' /\ equilibrium s' = false.
Proof. exact zero_slope. Qed.
Print Assumptions C16_converges_without_slope_refuted.

(** The hill of the demo. *)
Example C16_example :
  params_ok demo_grid demo_params /\ (cell_z demo_grid : Z) <= (p_dh_max demo_params : Z) /\
  bare demo_grid (fst demo_start) /\ sized demo_grid (fst demo_start) /\
  within_grid demo_grid (body_area (fst demo_start)) /\
  within_grid demo_grid (relax_area (fst demo_start)) /\ equilibrium (fst demo_start) = false.
Proof. exact hill_bare. Qed.

(** ** C17: status codes *)
Theorem C17_terrain_codes :
  forall (A : Num) (tol : F A) s i j h_min,
  let st := check_unstable_terrain_cell tol s i j h_min in
  st = 0 \/ In st (codes (first_digit s i j)) \/ (st = 30 /\ first_digit s i j = 3).
Proof. exact @check_terrain_codes. Qed.
Print Assumptions C17_terrain_codes.

Theorem C17_body_codes :
  forall (A : Num) (tol : F A),
  (forall a b : F A, fltb a b = true -> fltb b a = false) ->
  forall s i0 j0 ind i j h_min, exists st,
    check_unstable_body_cell tol s i0 j0 ind i j h_min = Some st /\
    (st = 0 \/ In st (codes (first_digit s i j))).
Proof. exact @check_body_codes. Qed.
Print Assumptions C17_body_codes.

(** Which code, and what it means. *)
Theorem C17_terrain_meaning :
  forall (upm : units) tol (s : sim (ZNum upm)) i j h_min, exists d0 d1,
  layers_digit s i j d0 /\ from_terrain tol s i j d1 /\
  check_unstable_terrain_cell (A := ZNum upm) tol s i j h_min =
    if ((terrain s i j : Z) + tol <? (h_min : Z)) && (surface s i j d1 + tol <? (h_min : Z))
    then 10 * d0 + d1 else 0.
Proof. exact @check_terrain_meaning. Qed.
Print Assumptions C17_terrain_meaning.

Theorem C17_body_meaning :
  forall (upm : units) tol (s : sim (ZNum upm)) i0 j0 ind i j h_min, exists d0 d1,
  layers_digit s i j d0 /\ from_body tol s (body s (ind + 1) i0 j0) i j d1 /\
  check_unstable_body_cell (A := ZNum upm) tol s i0 j0 ind i j h_min =
    Some (if surface s i j d1 + tol <? (h_min : Z) then 10 * d0 + d1 else 0).
Proof. exact @check_body_meaning. Qed.
Print Assumptions C17_body_meaning.

(** A cell with two layers and soil on both, seen from a high column. *)
Example C17_example :
  check_unstable_terrain_cell (A := N) 1 crossing 4 4 100 = 31 \/
  check_unstable_terrain_cell (A := N) 1 crossing 4 4 100 = 32.
Proof. right. vm_compute. reflexivity. Qed.

(** ** C18: avalanches go down *)
Theorem C18_terrain_avalanche :
  forall (upm : units) (frame : Z -> Z -> Z -> Pos (ZNum upm)) (g : grid_t (ZNum upm)) dh tol near,
  0 < tol -> 2 * tol < (cell_z g : Z) -> aligned (cell_z g) dh ->
  forall s s' i j d,
  good near (cell_z g) frame s (records s) -> inside s i j -> beside d ->
  relax_terrain_dir (A := ZNum upm) frame g dh tol i j d s = Ok s' ->
  let ic := i + fst d in let jc := j + snd d in
  (s' = s /\ ~ terrain_falls dh tol s i j ic jc) \/
  exists d1 h, from_terrain tol s ic jc d1 /\
    0 <= h /\ aligned (cell_z g) h /\
    surface s ic jc d1 + tol < (terrain s i j : Z) - dh /\
    (terrain s' i j : Z) = (terrain s i j : Z) - h /\
    surface s' ic jc (covered d1) = surface s ic jc d1 + h /\
    surface s' ic jc (covered d1) <= (terrain s i j : Z) - dh.
Proof.
  intros upm frame g dh tol near H1 H2 H3 s s' i j d Hg Hi Hd E. apply beside_directions4 in Hd.
  destruct (relax_terrain_dir_falls frame g dh tol near H1 H2 H3 s s' i j d Hg Hi Hd E)
    as [Q|(d1 & F & h & A1 & A2 & A3 & A4 & A5 & A6)]; [left; exact Q|right].
  exists d1, h. auto 10.
Qed.
Print Assumptions C18_terrain_avalanche.

Theorem C18_body_avalanche :
  forall (upm : units) (frame : Z -> Z -> Z -> Pos (ZNum upm)) (g : grid_t (ZNum upm)) dh tol near,
  0 < tol -> 2 * tol < (cell_z g : Z) -> 0 <= dh -> aligned (cell_z g) dh ->
  forall s s' pend pend' nn e d,
  good near (cell_z g) frame s (records s ++ pend) ->
  nth_error (records s) nn = Some e -> beside d ->
  relax_body_dir (A := ZNum upm) frame g dh tol nn (e_i e) (e_j e) (e_ind e) d (s, pend) = Ok (s', pend') ->
  let ic := e_i e + fst d in let jc := e_j e + snd d in
  let top : Z := body_soil s (e_ind e + 1) (e_i e) (e_j e) in
  ((s', pend') = (s, pend) /\ ~ record_falls dh tol s e ic jc) \/
  exists d1 h, from_body tol s (body s (e_ind e + 1) (e_i e) (e_j e)) ic jc d1 /\
    0 <= h <= (e_h e : Z) /\ aligned (cell_z g) h /\
    surface s ic jc d1 + tol < top - dh /\
    soil_height s' (e_ind e) (e_i e) (e_j e) = soil_height s (e_ind e) (e_i e) (e_j e) - h /\
    surface s' ic jc (covered d1) = surface s ic jc d1 + h /\
    surface s' ic jc (covered d1) <= top - dh.
Proof.
  intros upm frame g dh tol near H1 H2 H3 H4 s s' pend pend' nn e d Hg He Hd E.
  apply beside_directions4 in Hd.
  destruct (relax_body_dir_falls frame g dh tol near H1 H2 H3 H4 s s' pend pend' nn e d Hg He Hd E)
    as [Q|(d1 & F & h & A1 & A2 & A3 & A4 & A5 & A6)]; [left; exact Q|right].
  exists d1, h. auto 10.
Qed.
Print Assumptions C18_body_avalanche.
(** For the terrain see [C15_example]. *)

Example C18_example : exists nn e s' pend d,
  good (upm := zunits 100) demo_near (cell_z demo_grid) demo_frame (fst demo_mid)
    (records (fst demo_mid) ++ []) /\
  nth_error (records (fst demo_mid)) nn = Some e /\ beside d /\
  relax_body_dir (A := N) demo_frame demo_grid 0 1 nn (e_i e) (e_j e) (e_ind e) d
    (fst demo_mid, []) = Ok (s', pend) /\
  soil_height s' (e_ind e) (e_i e) (e_j e) <
    soil_height (fst demo_mid) (e_ind e) (e_i e) (e_j e).
Proof. exact load_falls. Qed.

(** ** C19: IncludeNewBodyPos *)
Theorem C19_include_new_body_pos :
  forall (upm : units) tol, 0 < tol -> forall (s : sim (ZNum upm)) i j lo hi,
  on_grid s i j -> layered tol s i j -> lo < hi ->
  returns (include_new_body_pos (A := ZNum upm) tol s i j lo hi) (fun s' =>
    only_cell s s' i j /\ layered tol s' i j /\
    (forall lo' hi', covers s i j lo' hi' -> covers s' i j lo' hi') /\
    covers s' i j lo hi /\
    forall k, layer k -> body_at s' k i j ->
      ((body s' k i j : Z) = lo \/
       exists k', layer k' /\ body_at s k' i j /\ body s' k i j = body s k' i j) /\
      ((body s' (k + 1) i j : Z) = hi \/
       exists k', layer k' /\ body_at s k' i j /\ body s' (k + 1) i j = body s (k' + 1) i j)).
Proof. exact @include_good. Qed.
Print Assumptions C19_include_new_body_pos.

Example C19_example : exists s',
  on_grid two_layers 4 4 /\ layered 1 two_layers 4 4 /\ 10 < 40 /\
  include_new_body_pos (A := N) 1 two_layers 4 4 10 40 = Ok s' /\
  (body s' 0 4 4 : Z) = 0 /\ (body s' 1 4 4 : Z) = 50 /\
  (body s' 2 4 4 : Z) = 0 /\ (body s' 3 4 4 : Z) = 0.
Proof. exact two_layers_joined. Qed.

(** ** C20: UpdateBody *)
Theorem C20_update_body :
  forall (upm : units) (g : grid_t (ZNum upm)) tol w s s',
  grid_ok g -> 0 < tol -> StronglySorted cell3_le w -> w <> [] ->
  (forall i j, on_grid s i j ->
     layered tol s i j /\ forall k, layer k -> body_at s k i j -> inside s i j) ->
  (forall i j k, In (i, j, k) w -> inside s i j /\ 0 <= k <= 2 * half_z g) ->
  update_body (A := ZNum upm) g tol w s = Ok s' ->
  only_body s s' /\
  (forall i j, on_grid s i j -> layered tol s' i j) /\
  (forall i j lo hi, covers s i j lo hi -> covers s' i j lo hi) /\
  (forall i j k k', In (i, j, k) w -> In (i, j, k') w ->
     covers s' i j ((vect_z g k : Z) - (cell_z g : Z)) (vect_z g k')) /\
  (forall i j, elsewhere w i j -> forall k, body s' k i j = body s k i j) /\
  (forall i j k, on_grid s i j -> layer k -> body_at s' k i j ->
     ((exists k', layer k' /\ body_at s k' i j /\ body s' k i j = body s k' i j) \/
      (exists z, In (i, j, z) w /\ (body s' k i j : Z) = (vect_z g z : Z) - (cell_z g : Z))) /\
     ((exists k', layer k' /\ body_at s k' i j /\ body s' (k + 1) i j = body s (k' + 1) i j) \/
      (exists z, In (i, j, z) w /\ (body s' (k + 1) i j : Z) = vect_z g z))).
Proof. exact @update_body_exact. Qed.
Print Assumptions C20_update_body.

Example C20_example : exists s',
  StronglySorted cell3_le one_wall /\
  (forall i j, on_grid two_layers i j ->
     layered 1 two_layers i j /\ forall k, layer k -> body_at two_layers k i j -> inside two_layers i j) /\
  (forall i j k, In (i, j, k) one_wall -> inside two_layers i j /\ 0 <= k <= 2 * half_z demo_grid) /\
  update_body (A := N) demo_grid 1 one_wall two_layers = Ok s' /\
  (body s' 0 4 4 : Z) = 0 /\ (body s' 1 4 4 : Z) = 30 /\ (body s' 2 4 4 : Z) = 40 /\
  (body s' 0 5 4 : Z) = 0 /\ (body s' 1 5 4 : Z) = 10.
Proof. exact two_layers_wall. Qed.

(** ** C21: CalcBodyPos *)
Theorem C21_calc_body_pos :
  forall (upm : units) (g : grid_t (ZNum upm)) tol a walls s s',
  grid_ok g -> 0 < tol ->
  (forall i j, in_area (body_area s) i j -> on_grid s i j) ->
  (forall k i j, on_grid s i j -> layer k -> body_at s k i j -> in_area (body_area s) i j) ->
  (forall w, In w walls -> w <> []) ->
  (forall w i j k, In w walls -> In (i, j, k) w -> inside s i j /\ 0 <= k <= 2 * half_z g) ->
  calc_body_pos (A := ZNum upm) g tol a walls s = Ok s' ->
  body_area s' = a /\
  (forall k i j, on_grid s i j -> layer k -> body_at s' k i j ->
     exists w z, In w walls /\ In (i, j, z) w) /\
  (forall w i j k k', In w walls -> In (i, j, k) w -> In (i, j, k') w ->
     covers s' i j ((vect_z g k : Z) - (cell_z g : Z)) (vect_z g k')) /\
  (forall k i j, on_grid s i j -> layer k -> body_at s' k i j ->
     (exists w z, In w walls /\ In (i, j, z) w /\
        (body s' k i j : Z) = (vect_z g z : Z) - (cell_z g : Z)) /\
     (exists w z, In w walls /\ In (i, j, z) w /\ (body s' (k + 1) i j : Z) = vect_z g z)) /\
  (forall i j, on_grid s i j -> layered tol s' i j).
Proof. exact @calc_body_pos_exact. Qed.
Print Assumptions C21_calc_body_pos.

Example C21_example : exists s',
  (forall i j, in_area (body_area two_layers) i j -> on_grid two_layers i j) /\
  (forall k i j, on_grid two_layers i j -> layer k -> body_at two_layers k i j ->
     in_area (body_area two_layers) i j) /\
  (forall w, In w [one_wall] -> w <> []) /\
  (forall w i j k, In w [one_wall] -> In (i, j, k) w ->
     inside two_layers i j /\ 0 <= k <= 2 * half_z demo_grid) /\
  calc_body_pos (A := N) demo_grid 1 (mkArea 3 6 3 6) [one_wall] two_layers = Ok s' /\
  (body s' 0 4 4 : Z) = 0 /\ (body s' 1 4 4 : Z) = 30 /\ (body s' 3 4 4 : Z) = 0.
Proof. exact two_layers_replaced. Qed.

(** A body cell in row 0 is never in the body area, which starts at 1: it is still
    there after the body left. *)
Theorem C21_old_body_forgotten_refuted :
  exists (G : geom N) (p0 p1 : pose G) w' a0 w0 a1 w1,
  g_raster G p0 = Ok (a0, w0) /\ in_margin demo_grid a0 /\
  g_raster G p1 = Ok (a1, w1) /\ in_margin demo_grid a1 /\
  run (A := N) G demo_grid demo_params 100 [p0; p1] (new_sim demo_grid demo_rng [], p1) = Ok w' /\
  snd w' = p1 /\
  body_at (fst w') 0 0 4 /\ forall w z, In w w1 -> ~ In (0, 4, z) w.
Proof. exact edge_remains. Qed.
Print Assumptions C21_old_body_forgotten_refuted.

(** ** C23, C24: CheckVolume and CheckSoil *)
Theorem C23_check_volume_exact :
  forall (upm : units) cz, 0 < cz -> forall tol v (s s' : sim (ZNum upm)) b,
  records_in s -> check_volume (A := ZNum upm) tol cz v s = Ok (s', b) ->
  (b = true <-> agree tol s /\ volume cz s = v) /\
  (b = true -> s' = s) /\ (b = false -> exists w, s' = warn s w).
Proof. exact @check_volume_inv. Qed.
Print Assumptions C23_check_volume_exact.

(** It returns when the counters do not overflow. *)
Theorem C23_check_volume_returns :
  forall (upm : units) cz, 0 < cz -> forall tol v (s : sim (ZNum upm)),
  records_in s -> abs_volume cz s <= 2147483647 ->
  (agree tol s /\ volume cz s = v /\ check_volume (A := ZNum upm) tol cz v s = Ok (s, true)) \/
  (~ (agree tol s /\ volume cz s = v) /\
   exists w, check_volume (A := ZNum upm) tol cz v s = Ok (warn s w, false)).
Proof. exact @check_volume_result. Qed.
Print Assumptions C23_check_volume_returns.
(** See [C02_example] in PropertiesStep.v and [C45_misaligned_grid_refuted] below. *)

Theorem C24_check_soil_exact :
  forall (upm : units) tol (s : sim (ZNum upm)),
  (forall i j, in_area (body_area s) i j -> on_grid s i j) ->
  ((forall i j, in_area (body_area s) i j -> conventions tol s i j) /\
   check_soil (A := ZNum upm) tol s = Ok (s, true)) \/
  ((exists i j, in_area (body_area s) i j /\ ~ conventions tol s i j) /\
   check_soil (A := ZNum upm) tol s = Ok (warn s WSoil, false)).
Proof. exact @check_soil_result. Qed.
Print Assumptions C24_check_soil_exact.

Example C24_example :
  answers true (check_soil (A := N) 1 two_layers) = true /\
  answers false (check_soil (A := N) 1 crossing) = true.
Proof. split; vm_compute; reflexivity. Qed.

(** ** C25: random orders *)
Theorem C25_shuffle_is_permutation :
  forall X (l : list X) r, Permutation (fst (shuffle l r)) l.
Proof. exact @shuffle_permutation. Qed.
Print Assumptions C25_shuffle_is_permutation.

Theorem C25_every_order_possible :
  forall X (l l' : list X), Permutation l' l -> exists r, fst (shuffle l r) = l'.
Proof. exact @shuffle_onto. Qed.
Print Assumptions C25_every_order_possible.

Example C25_example : Permutation [3; 1; 2] [1; 2; 3].
Proof. apply (Permutation_cons_app [1; 2] []). reflexivity. Qed.

(** ** C26, C27: UpdateBodySoil *)
Theorem C26_update_body_soil :
  forall (upm : units) (g : grid_t (ZNum upm)) tol near relocate,
  0 < tol -> 2 * tol < (cell_z g : Z) -> forall s,
  detached g near s -> Forall (target_ok relocate s) (records s) ->
  returns (update_body_soil g tol relocate s) (fun s' =>
    consistent near (cell_z g) s' (records s') /\
    (forall k i j, on_grid s i j -> body s' k i j = body s k i j) /\
    total_soil s' = total_soil s /\
    exists n, wlog s' = wlog s ++ repeat WToTerrain n).
Proof. exact @update_body_soil_summary. Qed.
Print Assumptions C26_update_body_soil.

Theorem C27_choice_of_wall :
  forall (upm : units) (g : grid_t (ZNum upm)) tol near relocate,
  0 < tol -> 2 * tol < (cell_z g : Z) -> forall s e,
  consistent near (cell_z g) s (records s) -> rec_ok near (cell_z g) s e ->
  (e_h e : Z) <> 0 -> target_ok relocate s e ->
  returns (update_record g tol relocate e s) (fun s' => rehomed g tol relocate s e s').
Proof. exact @update_record_choice. Qed.
Print Assumptions C27_choice_of_wall.

Theorem C27_distance :
  forall n P (z b : Z), f_dist (n := ZNum (plain n P)) z b = Z.abs (z - b).
Proof. reflexivity. Qed.
Print Assumptions C27_distance.

(** Whatever the arithmetic: where the soil goes, and how much of it. *)
Theorem C27_any_arithmetic :
  forall (A : Num) (g : grid_t A) tol relocate (s s' : sim A) e,
  update_record g tol relocate e s = Ok s' ->
  if f_below (e_h e) (cell_z g) then s' = s
  else exists r, relocate (e_pos e) = Ok r /\
    let h := f_snap (e_h e) (cell_z g) in
    (exists k i j, wall_around s r k i j /\ put_on_layer s s' k i j (e_pos e) h) \/
    put_on_terrain s s' (r_i r) (r_j r) h.
Proof. exact @update_record_any. Qed.
Print Assumptions C27_any_arithmetic.

(** The order in which the cells around the target are visited. *)
Theorem C27_order :
  forall (A : Num) (r : reloc A),
  let sx := if r_sx r then 1 else -1 in
  let sy := if r_sy r then 1 else -1 in
  let '(mx, my) := if r_xmain r then (sx, 0) else (0, sy) in
  let '(nx, ny) := if r_xmain r then (0, sy) else (sx, 0) in
  exploration r =
    [(0, 0); (mx, my); (mx + nx, my + ny); (nx, ny); (mx - nx, my - ny);
     (- nx, - ny); (nx - mx, ny - my); (- mx, - my); (- mx - nx, - my - ny)].
Proof. exact @exploration_order. Qed.
Print Assumptions C27_order.

Example C26_example : exists s',
  detached (upm := zunits 100) demo_grid demo_near (fst demo_mid) /\
  Forall (target_ok (upm := zunits 100) demo_reloc (fst demo_mid)) (records (fst demo_mid)) /\
  update_body_soil (A := N) demo_grid 1 demo_reloc (fst demo_mid) = Ok s' /\
  ~ soil_on (fst demo_mid) 0 4 4 /\ soil_on s' 0 4 4.
Proof. exact load_carried. Qed.

(** Soil dropped on the wall it meets, on a wall ten cells below, and on the terrain. *)
Example C27_example_walls : exists sn sf,
  consistent (upm := zunits 100) demo_near (cell_z demo_grid) (fst demo_mid) (records (fst demo_mid)) /\
  rec_ok (upm := zunits 100) demo_near 10 (fst demo_mid) (record_at 10 20) /\
  target_ok (upm := zunits 100) straight (fst demo_mid) (record_at 10 20) /\
  update_record (A := N) demo_grid 1 straight (record_at 10 20) (fst demo_mid) = Ok sn /\
  body_soil sn 1 4 4 = body_soil (fst demo_mid) 1 4 4 + body sn 1 4 4 -
                       body_soil (fst demo_mid) 0 4 4 + 20 /\
  update_record (A := N) demo_grid 1 straight (record_at 100 20) (fst demo_mid) = Ok sf /\
  length (records sf) = S (length (records (fst demo_mid))).
Proof. exact record_outcomes. Qed.

Example C27_example_terrain : exists s',
  consistent (upm := zunits 100) demo_near (cell_z demo_grid) (fst demo_start) (records (fst demo_start)) /\
  rec_ok (upm := zunits 100) demo_near 10 (fst demo_start) (record_at 10 20) /\
  target_ok (upm := zunits 100) straight (fst demo_start) (record_at 10 20) /\
  update_record (A := N) demo_grid 1 straight (record_at 10 20) (fst demo_start) = Ok s' /\
  (terrain s' 4 4 : Z) = (terrain (fst demo_start) 4 4 : Z) + 20 /\ wlog s' = [WToTerrain].
Proof. exact record_grounded. Qed.

(** ** C42, the part that does not depend on the noise function *)
Theorem C42_init_only_writes_terrain :
  forall (A : Num) (g : grid_t A) noise s, exists table,
  Permutation table (seq 0 256) /\
  let s' := init g noise s in
  same_but_terrain s s' /\
  forall i j,
    (0 <= i < nx s /\ 0 <= j < ny s ->
       terrain s' i j = f_snap (noise table i j) (cell_z g)) /\
    (~ (0 <= i < nx s /\ 0 <= j < ny s) -> terrain s' i j = terrain s i j).
Proof. exact @init_spec. Qed.
Print Assumptions C42_init_only_writes_terrain.

Theorem C42_init_consistent :
  forall (upm : units) (g : grid_t (ZNum upm)) (G : geom (ZNum upm)) legal near, grid_ok g ->
  forall noise r l old, state_ok g G legal near (init g noise (new_sim g r l), old).
Proof. exact @init_ok. Qed.
Print Assumptions C42_init_consistent.

(** ** C45: levels that are not multiples of the cell height *)
(** The terrain is aligned at the start; the second call loses soil, silently. *)
Theorem C45_misaligned_grid_refuted : exists w1 w' b,
  (forall i j, aligned (cell_z mis_grid) (terrain (fst mis_start) i j)) /\
  mis_run [0] = Ok w1 /\ volume_ok 63 (fst w1) = true /\
  step (A := N) demo_geom mis_grid demo_params demo_fuel 1 w1 = Ok (w', b) /\
  wlog (fst w') = wlog (fst w1) /\
  total_soil (fst w') < total_soil (fst w1) /\ volume_ok 63 (fst w') = false.
Proof. exact mis_refutes. Qed.
Print Assumptions C45_misaligned_grid_refuted.

(** ** C46: a pile that cannot move and is never at equilibrium *)
Theorem C46_unchanged_means_equilibrium_refuted :
  exists (g : grid_t N) (G : geom N) (p : pose G) (start : rng_t -> sim N),
  grid_ok g /\ geom_ok g G (fun _ => True) (fun _ => True) /\
  forall r, state_ok g G (fun _ => True) (fun _ => True) (start r, p) /\
    forall n, exists P s', params_ok g P /\ (cell_z g : Z) <= (p_dh_max P : Z) /\
      p_max_iterations P = n /\
      relax_loop (A := N) G g P p n (start r) = Ok s' /\ equilibrium s' = false /\
      records s' = records (start r) /\
      forall i j, on_grid (start r) i j ->
        terrain s' i j = terrain (start r) i j /\
        forall k, 0 <= k < 4 -> body_soil s' k i j = body_soil (start r) k i j.
Proof. exact stuck_pile. Qed.
Print Assumptions C46_unchanged_means_equilibrium_refuted.
