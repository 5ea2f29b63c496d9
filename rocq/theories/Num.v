(** Height arithmetic used by the soil half of the simulator.

    The C++ code stores heights in [float]; literals such as [0.5] and [0.9]
    and [grid.vect_z_] are [double].  The record below lists the operations the
    code performs on heights.  It carries no laws. *)
From Coq Require Import ZArith Bool.
Open Scope Z_scope.

Record Num : Type := mkNum {
  F : Type;                              (* float *)
  D : Type;                              (* double, for vect_z_ *)
  (* types.hpp: the members x_b, y_b, z_b of body_soil (three floats): the soil
     half only stores and hands them back *)
  Pos : Type;
  (* body_soil.cpp:82-86: the height new_cell_pos[2] of carried soil, which is only
     compared with the walls *)
  Hgt : Type;
  f0 : F;                                (* 0.0 *)
  fadd : F -> F -> F;                    (* a + b *)
  fsub : F -> F -> F;                    (* a - b *)
  fabs : F -> F;                         (* std::abs(a) *)
  (* body_soil.cpp:138: std::abs(new_cell_pos[2] - b) *)
  f_dist : Hgt -> F -> F;
  fltb : F -> F -> bool;                 (* a < b *)
  feqb : F -> F -> bool;                 (* a == b *)
  (* relax.cpp:600-603 and the other occurrences of the same idiom:
       h_new = 0.5 * (dh_max + a + b);
       h_new = cell_size_z * std::floor((h_new + tol) / cell_size_z); *)
  f_mid : F -> F -> F -> F -> F -> F;    (* dh_max a b tol cell_size_z *)
  (* body_soil.cpp:74: cell_size_z * round(h / cell_size_z) *)
  f_snap : F -> F -> F;                  (* h cell_size_z *)
  (* utils.cpp:278: round(h / cell_size_z), to be converted to int;
     None when the value is not finite *)
  f_count : F -> F -> option Z;          (* h cell_size_z *)
  (* body_soil.cpp:65: h < 0.9 * cell_size_z *)
  f_below : F -> F -> bool;              (* h cell_size_z *)
  (* body_soil.cpp:120: float dist_s = 2 * half_length_z (int to float) *)
  f_of_Z : Z -> F;
  (* body_pos.cpp:855: float max_h = vect_z_[k] *)
  d_to_f : D -> F;
  (* body_pos.cpp:854: float min_h = vect_z_[k] - cell_size_z *)
  d_sub_f : D -> F -> F
}.

Arguments f0 {_}.
Arguments fadd {_} _ _.
Arguments fsub {_} _ _.
Arguments fabs {_} _.
Arguments f_dist {_} _ _.
Arguments fltb {_} _ _.
Arguments feqb {_} _ _.
Arguments f_mid {_} _ _ _ _ _.
Arguments f_snap {_} _ _.
Arguments f_count {_} _ _.
Arguments f_below {_} _ _.
Arguments f_of_Z {_} _.
Arguments d_to_f {_} _.
Arguments d_sub_f {_} _ _.

Declare Scope num_scope.
Delimit Scope num_scope with num.
Notation "a +. b" := (fadd a b) (at level 50, left associativity) : num_scope.
Notation "a -. b" := (fsub a b) (at level 50, left associativity) : num_scope.
Notation "a <. b" := (fltb a b) (at level 70) : num_scope.
Notation "a >. b" := (fltb b a) (at level 70, only parsing) : num_scope.
Notation "a ==. b" := (feqb a b) (at level 70) : num_scope.
Notation "a !=. b" := (negb (feqb a b)) (at level 70) : num_scope.

Section Derived.
  Context {A : Num}.
  Open Scope num_scope.
  (** std::min(a, b) and std::max(a, b) (also the initializer_list versions,
      by folding to the left). *)
  Definition fmin (a b : F A) : F A := if b <. a then b else a.
  Definition fmax (a b : F A) : F A := if a <. b then b else a.
End Derived.

(** ** Exact instance

    A height is an integer number of ticks; [ticks upm] is the number of ticks in
    one metre (only used for [f_of_Z]). The positions in the body frame are of any
    type ([upos upm]), for instance triples of heights ([zunits]). The distance between
    carried soil and a wall is any function, for instance that of two numbers of ticks
    ([plain]).
    No operation rounds, except where the code itself rounds. *)

(** round(): to nearest, halves away from zero (C library [round]). *)
Definition round_half_away (n d : Z) : Z :=
  if 0 <=? n then (2 * n + d) / (2 * d) else - ((2 * (- n) + d) / (2 * d)).

Record units : Type := mkUnits {
  ticks : Z;
  upos : Type;
  uhgt : Type;
  udist : uhgt -> Z -> Z
}.
Definition plain (n : Z) (P : Type) : units := mkUnits n P Z (fun z b => Z.abs (z - b)).
Definition zunits (n : Z) : units := plain n (Z * Z * Z).

Definition ZNum (upm : units) : Num := {|
  F := Z;
  D := Z;
  Pos := upos upm;
  Hgt := uhgt upm;
  f0 := 0;
  fadd := Z.add;
  fsub := Z.sub;
  fabs := Z.abs;
  f_dist := udist upm;
  fltb := Z.ltb;
  feqb := Z.eqb;
  (* cz * floor(((dh + a + b) / 2 + tol) / cz) *)
  f_mid := fun dh a b tol cz => cz * ((dh + a + b + 2 * tol) / (2 * cz));
  f_snap := fun h cz => cz * round_half_away h cz;
  f_count := fun h cz => Some (round_half_away h cz);
  f_below := fun h cz => 10 * h <? 9 * cz;
  f_of_Z := fun n => n * ticks upm;
  d_to_f := fun d => d;
  d_sub_f := fun d cz => d - cz
|}.
