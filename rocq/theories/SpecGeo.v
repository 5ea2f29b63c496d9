(** Vocabulary of the geometric properties: vectors of the space and quaternions
    over the real numbers, independent of the model. *)
From Coq Require Import Reals.
From Verif Require Import Flt.
Open Scope R_scope.

Notation rvec := (vec R).
Notation rquat := (quat R).

Definition v0 : rvec := mkVec 0 0 0.
Definition vadd (a b : rvec) : rvec := mkVec (vx a + vx b) (vy a + vy b) (vz a + vz b).
Definition vsub (a b : rvec) : rvec := mkVec (vx a - vx b) (vy a - vy b) (vz a - vz b).
Definition vscale (k : R) (a : rvec) : rvec := mkVec (k * vx a) (k * vy a) (k * vz a).
Definition dot (a b : rvec) : R := vx a * vx b + vy a * vy b + vz a * vz b.
Definition cross (a b : rvec) : rvec :=
  mkVec (vy a * vz b - vz a * vy b) (vz a * vx b - vx a * vz b) (vx a * vy b - vy a * vx b).
Definition vlen (a : rvec) : R := sqrt (dot a a).
Definition vdist (a b : rvec) : R := vlen (vsub a b).

(** Three points not on a line: the triangle has a non zero area. *)
Definition triangle (a b c : rvec) : Prop := cross (vsub b a) (vsub c a) <> v0.

Definition qzero : rquat := mkQuat 0 0 0 0.
Definition qlen2 (q : rquat) : R := qw q * qw q + qx q * qx q + qy q * qy q + qz q * qz q.
Definition qscale (k : R) (q : rquat) : rquat :=
  mkQuat (k * qw q) (k * qx q) (k * qy q) (k * qz q).
Definition qconj (q : rquat) : rquat := mkQuat (qw q) (- qx q) (- qy q) (- qz q).
(** Vector part. *)
Definition qv (q : rquat) : rvec := mkVec (qx q) (qy q) (qz q).
(** Hamilton product, from the scalar and vector parts:
    (a, u)(b, v) = (ab - u.v, av + bu + u x v). *)
Definition qmul (p q : rquat) : rquat :=
  let v := vadd (vadd (vscale (qw p) (qv q)) (vscale (qw q) (qv p))) (cross (qv p) (qv q)) in
  mkQuat (qw p * qw q - dot (qv p) (qv q)) (vx v) (vy v) (vz v).

(** Rotation of angle [t] around the unit vector [n], right-handed (Rodrigues). *)
Definition rotation (n : rvec) (t : R) (a : rvec) : rvec :=
  vadd (vadd (vscale (cos t) a) (vscale (sin t) (cross n a)))
       (vscale ((1 - cos t) * dot n a) n).
Definition ex : rvec := mkVec 1 0 0.
Definition ey : rvec := mkVec 0 1 0.
Definition ez : rvec := mkVec 0 0 1.
