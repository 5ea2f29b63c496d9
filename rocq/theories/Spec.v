(** Vocabulary of the soil properties, on exact heights (integers). Nothing here
    refers to a function of the simulator: only to the stored data. *)
From Coq Require Import ZArith List Bool.
From Verif Require Import Outcome Num State Base.
Import ListNotations.
Open Scope Z_scope.

(** [d] leads to one of the four cells that share a side with a cell. *)
Definition beside (d : Z * Z) : Prop := Z.abs (fst d) + Z.abs (snd d) = 1.

Section Spec.
  Context {upm : units}.
  Local Notation sim := (sim (ZNum upm)).
  Local Notation rec := (rec_t (ZNum upm)).

  (** A cell of the grid; a cell that is not on its border. *)
  Definition on_grid (s : sim) (i j : Z) : Prop :=
    0 <= i < nx s /\ 0 <= j < ny s.
  Definition inside (s : sim) (i j : Z) : Prop :=
    1 <= i <= nx s - 2 /\ 1 <= j <= ny s - 2.

  (** The two layers are numbered 0 and 2. *)
  Definition layer (k : Z) : Prop := k = 0 \/ k = 2.

  (** The body, resp. some soil, is in layer [k] of the cell. *)
  Definition body_at (s : sim) (k i j : Z) : Prop :=
    (body s k i j : Z) <> 0 \/ (body s (k + 1) i j : Z) <> 0.
  Definition soil_on (s : sim) (k i j : Z) : Prop :=
    (body_soil s k i j : Z) <> 0 \/ (body_soil s (k + 1) i j : Z) <> 0.

  (** Amount of soil. *)
  Definition soil_height (s : sim) (k i j : Z) : Z :=
    (body_soil s (k + 1) i j : Z) - (body_soil s k i j : Z).
  Definition soil_at (s : sim) (i j : Z) : Z :=
    (terrain s i j : Z) + soil_height s 0 i j + soil_height s 2 i j.
  Definition total_soil (s : sim) : Z := sum2 (nx s) (ny s) (soil_at s).

  (** Amount of soil that the records [l] announce in layer [k] of a cell. *)
  Definition matches (e : rec) (k i j : Z) : bool :=
    (e_ind e =? k) && (e_i e =? i) && (e_j e =? j).
  Fixpoint recorded (l : list rec) (k i j : Z) : Z :=
    match l with
    | [] => 0
    | e :: l' => (if matches e k i j then (e_h e : Z) else 0) + recorded l' k i j
    end.
  Definition listed (l : list rec) (k i j : Z) : Prop :=
    exists e, In e l /\ matches e k i j = true.

  Definition aligned (cz v : Z) : Prop := (cz | v).

  (** All heights of the cell are multiples of [cz]. *)
  Definition cell_aligned (cz : Z) (s : sim) (i j : Z) : Prop :=
    aligned cz (terrain s i j) /\
    forall k, 0 <= k < 4 ->
      aligned cz (body s k i j) /\ aligned cz (body_soil s k i j).

  (** The body layers of the cell are not empty, do not touch each other, and are
      not on the border of the grid. *)
  Definition cell_body (s : sim) (i j : Z) : Prop :=
    (forall k, layer k -> body_at s k i j ->
       inside s i j /\ (body s k i j : Z) < (body s (k + 1) i j : Z)) /\
    (body_at s 0 i j -> body_at s 2 i j ->
       (body s 1 i j : Z) < (body s 2 i j : Z) \/
       (body s 3 i j : Z) < (body s 0 i j : Z)).

  (** The soil rests on the body, and the records describe it. *)
  Definition cell_soil (s : sim) (l : list rec) (i j : Z) : Prop :=
    forall k, layer k ->
      (soil_on s k i j ->
         body_at s k i j /\ body_soil s k i j = body s (k + 1) i j /\
         listed l k i j) /\
      soil_height s k i j = recorded l k i j.

  (** The terrain does not go through the body. *)
  Definition terrain_below (s : sim) : Prop :=
    forall i j k, on_grid s i j -> layer k -> body_at s k i j ->
      (terrain s i j : Z) <= (body s k i j : Z).

  (** The soil of the lower layer does not go through the upper layer. *)
  Definition soil_below (s : sim) : Prop :=
    forall i j k, on_grid s i j -> layer k -> soil_on s k i j ->
      body_at s (2 - k) i j -> (body s k i j : Z) < (body s (2 - k) i j : Z) ->
      (body_soil s (k + 1) i j : Z) <= (body s (2 - k) i j : Z).

  (** What a record may be. [near] says which positions in the body frame are
      acceptable; see [geom_ok] in Spec2.v. *)
  Definition rec_ok (near : Pos (ZNum upm) -> Prop) (cz : Z) (s : sim) (e : rec)
    : Prop :=
    layer (e_ind e) /\ inside s (e_i e) (e_j e) /\
    0 <= (e_h e : Z) /\ aligned cz (e_h e) /\ near (e_pos e).

  (** The data is consistent, [l] being the list of records. *)
  Definition consistent (near : Pos (ZNum upm) -> Prop) (cz : Z)
    (s : sim) (l : list rec) : Prop :=
    3 <= nx s /\ 3 <= ny s /\
    (forall i j, on_grid s i j ->
       cell_aligned cz s i j /\ cell_body s i j /\ cell_soil s l i j) /\
    Forall (rec_ok near cz s) l.
End Spec.
