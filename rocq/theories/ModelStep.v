(** The simulator loop: soil_dynamics.cpp. *)
From Coq Require Import ZArith List Bool.
From Verif Require Import Outcome Num State ModelRelax ModelIntersect
  ModelBodySoil ModelBodyPos ModelUtils.
Import ListNotations.
Open Scope Z_scope.
Open Scope num_scope.

(** The geometry computed from poses (position and orientation of the body).
    Everything the soil half needs to know about it goes through this record. *)
Record geom (A : Num) : Type := mkGeom {
  pose : Type;
  (* CheckBodyMovement(new pose) with the former pose stored in the body:
     result, and whether the warning of utils.cpp:116 is issued *)
  g_moved : pose -> pose -> bool * bool;      (* former, new *)
  (* CalcBodyFramePos with the pose stored in the body *)
  g_frame : pose -> Z -> Z -> F A -> Pos A;
  (* body_pos.cpp:39-107 / 145-255: new body_area_ and cells of the walls *)
  g_raster : pose -> outcome (area * list (list cell3));
  (* body_soil.cpp:77-113: former pose, new pose, position in the body frame *)
  g_reloc : pose -> pose -> Pos A -> outcome (reloc A)
}.
Arguments pose {A} _.
Arguments g_moved {A} _ _ _.
Arguments g_frame {A} _ _ _ _ _.
Arguments g_raster {A} _ _.
Arguments g_reloc {A} _ _ _ _.

(** [SimParam] and the arguments of Step; [p_dh_max] is the value computed at
    relax.cpp:48-52 and 161-164 (the two computations are the same). *)
Record params (A : Num) : Type := mkParams {
  p_dh_max : F A;
  p_max_iterations : nat;
  p_cell_buffer : Z;
  p_tol : F A
}.
Arguments p_dh_max {A} _.
Arguments p_max_iterations {A} _.
Arguments p_cell_buffer {A} _.
Arguments p_tol {A} _.

Section Step.
  Context {A : Num}.
  Variable G : geom A.
  Variable g : grid_t A.
  Variable P : params A.

  Notation sim := (sim A).

  (** soil_dynamics.cpp:93-100 *)
  Definition update_impact_area (s : sim) : sim :=
    let b := body_area s in
    let r := relax_area s in
    set_impact_area s
      (mkArea (Z.min (x_lo b) (x_lo r)) (Z.max (x_hi b) (x_hi r))
              (Z.min (y_lo b) (y_lo r)) (Z.max (y_hi b) (y_hi r))).

  (** soil_dynamics.cpp:108-112 *)
  Definition shuffle_records (s : sim) : sim :=
    let '(l, r) := shuffle (records s) (rng s) in
    set_rng (set_records s l) r.

  (** soil_dynamics.cpp:92-115: one iteration of the relaxation loop. *)
  Definition relax_round (p : pose G) (s : sim) : outcome sim :=
    let s := update_impact_area s in
    s <- relax_terrain (g_frame G p) g (p_dh_max P) (p_cell_buffer P) (p_tol P) s ;;
    let s := shuffle_records s in
    relax_body_soil (g_frame G p) g (p_dh_max P) (p_tol P) s.

  (** soil_dynamics.cpp:88-116: [n] is [max_iterations_ - it]. *)
  Fixpoint relax_loop (p : pose G) (n : nat) (s : sim) : outcome sim :=
    match n with
    | O => Ok s
    | S n' =>
        if equilibrium s then Ok s
        else s <- relax_round p s ;; relax_loop p n' s
    end.

  (** The process state that Step reads and writes: SimOut (with the generator
      and the log) and the pose stored in the body. *)
  Definition world : Type := (sim * pose G)%type.

  (** soil_dynamics.cpp:61-119 Step. *)
  Definition step (fuel : nat) (p : pose G) (w : world) : outcome (world * bool) :=
    let '(s, old) := w in
    let '(moved, far) := g_moved G old p in
    let s := if far then warn s WLargeMove else s in
    if negb moved then Ok ((s, old), false)
    else
      '(a, walls) <- g_raster G p ;;
      s <- calc_body_pos g (p_tol P) a walls s ;;
      s <- update_body_soil g (p_tol P) (g_reloc G old p) s ;;
      s <- move_intersecting_cells (g_frame G p) (p_tol P) fuel s ;;
      let s := set_equilibrium s false in
      s <- relax_loop p (p_max_iterations P) s ;;
      Ok ((s, p), true).

  (** A sequence of calls of Step. *)
  Fixpoint run (fuel : nat) (ps : list (pose G)) (w : world) : outcome world :=
    match ps with
    | [] => Ok w
    | p :: ps' => '(w, _) <- step fuel p w ;; run fuel ps' w
    end.
End Step.

(** soil_dynamics.cpp:36-58 Init, for an arbitrary noise function: the
    simplex noise itself is in the geometry files. The permutation table costs
    255 draws of the generator. *)
Section Init.
  Context {A : Num}.
  Variable g : grid_t A.

  Definition init_terrain (noise : Z -> Z -> F A) (s : sim A) : sim A :=
    fold_left
      (fun s c => set_t s (fst c) (snd c) (f_snap (noise (fst c) (snd c)) (cell_z g)))
      (all_cells s) s.

  (** soil_dynamics.cpp:22-33: the table is the identity, shuffled. *)
  Definition perm_table (r : rng_t) : list nat * rng_t := shuffle (seq 0 256) r.

  Definition init (noise : list nat -> Z -> Z -> F A) (s : sim A) : sim A :=
    let '(table, r) := perm_table (rng s) in
    init_terrain (noise table) (set_rng s r).
End Init.
