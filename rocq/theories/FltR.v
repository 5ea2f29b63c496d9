(** Exact arithmetic: float and double are the real numbers. *)
From Coq Require Import Reals ZArith List Bool Lra Lia.
From Verif Require Import Outcome Flt.
Open Scope R_scope.

Definition Rltb (a b : R) : bool := if Rlt_dec a b then true else false.
Definition Rleb (a b : R) : bool := if Rle_dec a b then true else false.
Definition Reqb (a b : R) : bool := if Req_EM_T a b then true else false.

(** Largest integer below, smallest integer above, nearest integer (halves away from
    zero), integer part towards zero. *)
Definition zfloor (x : R) : Z := (up x - 1)%Z.
Definition zceil (x : R) : Z := (- zfloor (- x))%Z.
Definition zround (x : R) : Z :=
  if Rle_dec 0 x then zfloor (x + / 2) else (- zfloor (- x + / 2))%Z.
Definition ztrunc (x : R) : Z := if Rle_dec 0 x then zfloor x else zceil x.

Definition FltR : flt := {|
  sf := R;
  df := R;
  sadd := Rplus;
  ssub := Rminus;
  smul := Rmult;
  sdiv := Rdiv;
  sopp := Ropp;
  sabs := Rabs;
  ssqrt := sqrt;
  sltb := Rltb;
  seqb := Reqb;
  sneg := fun x => Rltb x 0;
  sfloor := fun x => IZR (zfloor x);
  sceil := fun x => IZR (zceil x);
  s_of_Z := IZR;
  s_trunc := fun x => Some (ztrunc x);
  dadd := Rplus;
  dsub := Rminus;
  dmul := Rmult;
  ddiv := Rdiv;
  dsqrt := sqrt;
  dltb := Rltb;
  dleb := Rleb;
  deqb := Reqb;
  dround := fun x => IZR (zround x);
  d_of_Z := IZR;
  d_trunc := fun x => Some (ztrunc x);
  wid := fun x => x;
  nar := fun x => x
|}.
