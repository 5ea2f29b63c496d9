(** Vocabulary of the safety of Step in any arithmetic. Nothing is assumed of the
    operations on heights, except what the definitions below say. *)
From Coq Require Import ZArith List Bool.
From Verif Require Import Outcome Num State ModelBodySoil ModelBodyPos ModelStep.
Import ListNotations.
Open Scope Z_scope.

(** The behaviour of the call is defined, and if it returns its result satisfies [Q]. *)
Definition safe {X} (m : outcome X) (Q : X -> Prop) : Prop :=
  match m with Ok a => Q a | UB _ => False | OutOfFuel => True end.

Section SpecSafe.
  Context {A : Num}.
  Local Notation sim := (sim A).

  (** Zero equals itself, zero is not above the tolerance, and the initial distance of
      UpdateBodySoil equals itself. *)
  Definition arithmetic_ok (g : grid_t A) (P : params A) : Prop :=
    feqb (f0 (n := A)) f0 = true /\
    fltb (p_tol P) f0 = false /\
    feqb (f_of_Z (n := A) (2 * half_z g)) (f_of_Z (2 * half_z g)) = true.

  (** The grid has an interior, and its size plus the buffer fits in an int. *)
  Definition size_ok (g : grid_t A) (P : params A) : Prop :=
    1 <= half_x g /\ 1 <= half_y g /\ 0 <= p_cell_buffer P /\
    2 * half_x g + 1 + p_cell_buffer P <= 2147483647 /\
    2 * half_y g + 1 + p_cell_buffer P <= 2147483647.

  (** The area does not reach the border ring of the grid. *)
  Definition off_border (g : grid_t A) (a : area) : Prop :=
    1 <= x_lo a /\ x_hi a <= 2 * half_x g /\ 1 <= y_lo a /\ y_hi a <= 2 * half_y g.

  (** As [geom_ok] of Spec2.v: the body of a legal pose is inside the grid, and the
      positions that may be stored in a record are sent inside the grid. *)
  Definition poses_ok (g : grid_t A) (G : geom A) (legal : pose G -> Prop)
    (near : Pos A -> Prop) : Prop :=
    (forall p, legal p -> exists a walls,
       g_raster G p = Ok (a, walls) /\ off_border g a /\
       (forall w, In w walls -> w <> []) /\
       (forall w i j k, In w walls -> In (i, j, k) w ->
          in_area a i j /\ 0 <= k <= 2 * half_z g /\
          near (g_frame G p i j (d_to_f (vect_z g k))))) /\
    (forall p p' x, legal p -> legal p' -> near x -> exists r,
       g_reloc G p p' x = Ok r /\
       1 <= r_i r <= 2 * half_x g - 1 /\ 1 <= r_j r <= 2 * half_y g - 1).

  (** A record that designates a layer and a cell off the border ring. *)
  Definition rec_inside (g : grid_t A) (near : Pos A -> Prop) (e : rec_t A) : Prop :=
    (e_ind e = 0 \/ e_ind e = 2) /\
    1 <= e_i e <= 2 * half_x g - 1 /\ 1 <= e_j e <= 2 * half_y g - 1 /\ near (e_pos e).

  (** What has to hold between two calls of Step. Nothing is said of the heights. *)
  Definition memory_ok (g : grid_t A) (G : geom A) (legal : pose G -> Prop)
    (near : Pos A -> Prop) (w : world G) : Prop :=
    let '(s, old) := w in
    nx s = 2 * half_x g + 1 /\ ny s = 2 * half_y g + 1 /\
    off_border g (body_area s) /\ off_border g (relax_area s) /\
    (forall k i j, k = 0 \/ k = 2 -> inb s i j = true -> body_present s k i j = true ->
       in_area (body_area s) i j) /\
    Forall (rec_inside g near) (records s) /\
    (records s = [] \/ legal old).
End SpecSafe.
