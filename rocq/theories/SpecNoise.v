(** Vocabulary of the noise: the sum of one bump at every point of a triangular lattice.
    Nothing here comes from the model of the code. *)
From Coq Require Import Reals ZArith List.
Import ListNotations.
Open Scope R_scope.

(** The points of the lattice: the points with integer coordinates, squeezed along the
    diagonal so that the triangles become equilateral. *)
Definition squeeze (i j : Z) : R := (IZR i + IZR j) * ((3 - sqrt 3) / 6).
Definition from_x (x : R) (i j : Z) : R := x - (IZR i - squeeze i j).
Definition from_y (y : R) (i j : Z) : R := y - (IZR j - squeeze i j).
Definition dist2 (x y : R) (i j : Z) : R :=
  from_x x i j * from_x x i j + from_y y i j * from_y y i j.

(** The direction chosen by the table at a point of the lattice. *)
Definition compass : list (Z * Z) :=
  [(1, 0); (-1, 0); (0, 1); (0, -1); (1, 1); (1, -1); (-1, 1); (-1, -1)]%Z.
Definition direction (table : list Z) (i j : Z) : Z * Z :=
  let p := nth (Z.to_nat j) table 0%Z in
  let q := nth (Z.to_nat ((i + p) mod 256)) table 0%Z in
  nth (Z.to_nat (q mod 8)) compass (0, 0)%Z.

(** The bump at a point of the lattice: it vanishes beyond the distance sqrt (1/2). *)
Definition bump (table : list Z) (x y : R) (c : Z * Z) : R :=
  let '(i, j) := c in
  let t := / 2 - dist2 x y i j in
  if Rlt_dec t 0 then 0
  else t ^ 4 * (from_x x i j * IZR (fst (direction table i j)) +
                from_y y i j * IZR (snd (direction table i j))).

Definition sum {X} (f : X -> R) (l : list X) : R := fold_right Rplus 0 (map f l).

(** A list of the points that matter. *)
Definition covers (x y : R) (l : list (Z * Z)) : Prop :=
  NoDup l /\ forall i j, dist2 x y i j < / 2 -> In (i, j) l.
