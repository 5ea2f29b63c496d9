(** Data of the simulator: types.hpp, types.cpp. *)
From Coq Require Import ZArith List Bool.
From Verif Require Import Outcome Num.
Import ListNotations.
Open Scope Z_scope.

(** Warnings sent to glog (one constructor per LOG(WARNING) of the soil half). *)
Inductive warning : Type :=
| WRemoved        (* intersecting_cells.cpp:156: extra soil arbitrarily removed *)
| WToTerrain      (* body_soil.cpp:207: body soil moved to the terrain *)
| WLargeMove      (* utils.cpp:116: movement larger than two cells *)
| WRecords        (* utils.cpp:267: records inconsistent with body_soil_ *)
| WVolume         (* utils.cpp:307: volume is not conserved *)
| WSoil.          (* utils.cpp:355-483: one of the conventions is violated *)

(** types.hpp: [int area[2][2]]: [[x_lo, x_hi], [y_lo, y_hi]]. *)
Record area : Type := mkArea { x_lo : Z; x_hi : Z; y_lo : Z; y_hi : Z }.

(** [for ii in [x_lo, x_hi) for jj in [y_lo, y_hi)]. *)
Definition area_cells (a : area) : list (Z * Z) :=
  flat_map (fun i => map (fun j => (i, j)) (zrange (y_lo a) (y_hi a)))
           (zrange (x_lo a) (x_hi a)).

Definition in_area (a : area) (i j : Z) : Prop :=
  x_lo a <= i < x_hi a /\ y_lo a <= j < y_hi a.

(** The global [std::mt19937 rng] (types.hpp) together with the distribution: the
    future answers, [r n aa] being the answer to the n-th next request of a number
    between 0 and [aa]. Every theorem quantifies over it. *)
Definition rng_t : Type := nat -> nat -> nat.

Section State.
  Context {A : Num}.

  (** types.hpp: [struct body_soil]. *)
  Record rec_t : Type := mkRec {
    e_ind : Z;
    e_i : Z;
    e_j : Z;
    e_pos : Pos A;    (* x_b, y_b, z_b *)
    e_h : F A
  }.

  (** types.hpp: [class Grid], the members used by the soil half. *)
  Record grid_t : Type := mkGrid {
    half_x : Z;
    half_y : Z;
    half_z : Z;
    cell_z : F A;
    vect_z : Z -> D A
  }.

  (** types.hpp: [class SimOut], together with the two process globals written by
      the soil half: the random generator and the log.
      [terrain_] etc. are [nx] by [ny] vectors; the functions below are only read
      at positions that passed [inb]. *)
  Record sim : Type := mkSim {
    nx : Z;
    ny : Z;
    equilibrium : bool;
    terrain : Z -> Z -> F A;
    body : Z -> Z -> Z -> F A;
    body_soil : Z -> Z -> Z -> F A;
    records : list rec_t;              (* body_soil_pos_ *)
    body_area : area;
    relax_area : area;
    impact_area : area;
    rng : rng_t;
    wlog : list warning
  }.

  (** Valid first and second index of terrain_, body_[k], body_soil_[k]. *)
  Definition inb (s : sim) (i j : Z) : bool :=
    (0 <=? i) && (i <? nx s) && (0 <=? j) && (j <? ny s).

  Definition upd2 (f : Z -> Z -> F A) (i j : Z) (v : F A) : Z -> Z -> F A :=
    fun i' j' => if (i' =? i) && (j' =? j) then v else f i' j'.
  Definition upd3 (f : Z -> Z -> Z -> F A) (k i j : Z) (v : F A)
    : Z -> Z -> Z -> F A :=
    fun k' i' j' =>
      if (k' =? k) && (i' =? i) && (j' =? j) then v else f k' i' j'.

  Definition set_equilibrium (s : sim) (b : bool) : sim :=
    mkSim (nx s) (ny s) b (terrain s) (body s) (body_soil s) (records s)
          (body_area s) (relax_area s) (impact_area s) (rng s) (wlog s).
  Definition set_t (s : sim) (i j : Z) (v : F A) : sim :=
    mkSim (nx s) (ny s) (equilibrium s) (upd2 (terrain s) i j v) (body s)
          (body_soil s) (records s) (body_area s) (relax_area s) (impact_area s)
          (rng s) (wlog s).
  Definition set_b (s : sim) (k i j : Z) (v : F A) : sim :=
    mkSim (nx s) (ny s) (equilibrium s) (terrain s) (upd3 (body s) k i j v)
          (body_soil s) (records s) (body_area s) (relax_area s) (impact_area s)
          (rng s) (wlog s).
  Definition set_bs (s : sim) (k i j : Z) (v : F A) : sim :=
    mkSim (nx s) (ny s) (equilibrium s) (terrain s) (body s)
          (upd3 (body_soil s) k i j v) (records s) (body_area s) (relax_area s)
          (impact_area s) (rng s) (wlog s).
  Definition set_records (s : sim) (l : list rec_t) : sim :=
    mkSim (nx s) (ny s) (equilibrium s) (terrain s) (body s) (body_soil s) l
          (body_area s) (relax_area s) (impact_area s) (rng s) (wlog s).
  Definition set_body_area (s : sim) (a : area) : sim :=
    mkSim (nx s) (ny s) (equilibrium s) (terrain s) (body s) (body_soil s)
          (records s) a (relax_area s) (impact_area s) (rng s) (wlog s).
  Definition set_relax_area (s : sim) (a : area) : sim :=
    mkSim (nx s) (ny s) (equilibrium s) (terrain s) (body s) (body_soil s)
          (records s) (body_area s) a (impact_area s) (rng s) (wlog s).
  Definition set_impact_area (s : sim) (a : area) : sim :=
    mkSim (nx s) (ny s) (equilibrium s) (terrain s) (body s) (body_soil s)
          (records s) (body_area s) (relax_area s) a (rng s) (wlog s).
  Definition set_rng (s : sim) (r : rng_t) : sim :=
    mkSim (nx s) (ny s) (equilibrium s) (terrain s) (body s) (body_soil s)
          (records s) (body_area s) (relax_area s) (impact_area s) r (wlog s).
  Definition warn (s : sim) (w : warning) : sim :=
    mkSim (nx s) (ny s) (equilibrium s) (terrain s) (body s) (body_soil s)
          (records s) (body_area s) (relax_area s) (impact_area s) (rng s)
          (wlog s ++ [w]).

  (** [body_soil_pos_.push_back(...)] *)
  Definition push_record (s : sim) (e : rec_t) : sim :=
    set_records s (records s ++ [e]).

  Fixpoint list_set {X} (l : list X) (n : nat) (x : X) : list X :=
    match l, n with
    | [], _ => []
    | _ :: l', O => x :: l'
    | y :: l', S n' => y :: list_set l' n' x
    end.

  Definition rec_with_h (e : rec_t) (h : F A) : rec_t :=
    mkRec (e_ind e) (e_i e) (e_j e) (e_pos e) h.

  (** [body_soil_pos_[nn].h_soil = h] (nn in range). *)
  Definition set_record_h (s : sim) (nn : nat) (e : rec_t) (h : F A) : sim :=
    set_records s (list_set (records s) nn (rec_with_h e h)).

  (** types.cpp:149-176 SimOut::SimOut. The generator and the log are those of
      the process. *)
  Definition new_sim (g : grid_t) (r : rng_t) (l : list warning) : sim :=
    let a := mkArea 1 (2 * half_x g) 1 (2 * half_y g) in
    mkSim (2 * half_x g + 1) (2 * half_y g + 1) false
          (fun _ _ => f0) (fun _ _ _ => f0) (fun _ _ _ => f0) []
          a a a r l.

  (** [(v[k][i][j] == 0.0) && (v[k+1][i][j] == 0.0)] for body_ / body_soil_. *)
  Definition body_absent (s : sim) (k i j : Z) : bool :=
    feqb (body s k i j) f0 && feqb (body s (k + 1) i j) f0.
  (** [(v[k][i][j] != 0.0) || (v[k+1][i][j] != 0.0)] *)
  Definition body_present (s : sim) (k i j : Z) : bool :=
    negb (feqb (body s k i j) f0) || negb (feqb (body s (k + 1) i j) f0).
  Definition soil_present (s : sim) (k i j : Z) : bool :=
    negb (feqb (body_soil s k i j) f0) || negb (feqb (body_soil s (k + 1) i j) f0).
End State.

Arguments rec_t A : clear implicits.
Arguments sim A : clear implicits.
Arguments grid_t A : clear implicits.

(** ** Randomisation
    relax.cpp:65-69 (and 95-99, 190-194, intersecting_cells.cpp:108-112, 207-211,
    soil_dynamics.cpp:29-33, 108-112):
      for (int aa = size - 1; aa > 0; aa--) {
        uniform_int_distribution<int> dist(0, aa); int bb = dist(rng);
        std::swap(v[aa], v[bb]); } *)
Definition draw (r : rng_t) (aa : nat) : nat * rng_t :=
  (Nat.modulo (r O aa) (S aa), fun n => r (S n)).

Definition swap {X} (l : list X) (a b : nat) : list X :=
  match nth_error l a, nth_error l b with
  | Some x, Some y => list_set (list_set l a y) b x
  | _, _ => l
  end.

Fixpoint shuffle_from {X} (aa : nat) (l : list X) (r : rng_t) : list X * rng_t :=
  match aa with
  | O => (l, r)
  | S aa' =>
      let '(bb, r') := draw r aa in
      shuffle_from aa' (swap l aa bb) r'
  end.

Definition shuffle {X} (l : list X) (r : rng_t) : list X * rng_t :=
  shuffle_from (length l - 1) l r.
