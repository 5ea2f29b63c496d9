(** IEEE 754: float is binary32, double is binary64, rounding to nearest even. The
    operations are those of the standard library (Coq.Floats.SpecFloat). *)
From Coq Require Import ZArith List Bool.
From Coq Require Import Floats.SpecFloat.
From Verif Require Import Outcome Flt.
Open Scope Z_scope.

Definition sp : Z := 24.
Definition se : Z := 128.
Definition dp : Z := 53.
Definition de : Z := 1024.

(** The value [m * 2^e] rounded to the given format; [neg] is the sign of a zero. *)
Definition of_scaled (p e : Z) (neg : bool) (m x : Z) : spec_float :=
  binary_normalize p e m x neg.

Definition b_ltb (a b : spec_float) : bool :=
  match SFcompare a b with Some Lt => true | _ => false end.
Definition b_leb (a b : spec_float) : bool :=
  match SFcompare a b with Some Lt | Some Eq => true | _ => false end.
Definition b_eqb (a b : spec_float) : bool :=
  match SFcompare a b with Some Eq => true | _ => false end.

Definition b_neg (a : spec_float) : bool :=
  match a with
  | S754_zero s | S754_infinity s | S754_finite s _ _ => s
  | S754_nan => false
  end.

(** Conversion between the formats. *)
Definition b_conv (p e : Z) (a : spec_float) : spec_float :=
  match a with
  | S754_finite s m x => of_scaled p e s (cond_Zopp s (Zpos m)) x
  | _ => a
  end.

(** The value rounded to an integer by [rnd m e], which rounds [m * 2^-e], e > 0. *)
Definition b_to_int (rnd : Z -> Z -> Z) (p e : Z) (a : spec_float) : spec_float :=
  match a with
  | S754_finite s m x =>
      if 0 <=? x then a
      else of_scaled p e s (rnd (cond_Zopp s (Zpos m)) (- x)) 0
  | _ => a
  end.
Definition r_floor (m e : Z) : Z := Z.shiftr m e.
Definition r_ceil (m e : Z) : Z := - Z.shiftr (- m) e.
(** halves away from zero *)
Definition r_round (m e : Z) : Z :=
  if 0 <=? m then Z.shiftr (2 * m + Z.shiftl 1 e) (e + 1)
  else - Z.shiftr (2 * (- m) + Z.shiftl 1 e) (e + 1).

Definition b_trunc (a : spec_float) : option Z :=
  match a with
  | S754_zero _ => Some 0
  | S754_finite s m x =>
      Some (cond_Zopp s (if 0 <=? x then Z.shiftl (Zpos m) x else Z.shiftr (Zpos m) (- x)))
  | _ => None
  end.

Definition FltB : flt := {|
  sf := spec_float;
  df := spec_float;
  sadd := SFadd sp se;
  ssub := SFsub sp se;
  smul := SFmul sp se;
  sdiv := SFdiv sp se;
  sopp := SFopp;
  sabs := SFabs;
  ssqrt := SFsqrt sp se;
  sltb := b_ltb;
  seqb := b_eqb;
  sneg := b_neg;
  sfloor := b_to_int r_floor sp se;
  sceil := b_to_int r_ceil sp se;
  s_of_Z := fun n => of_scaled sp se false n 0;
  s_trunc := b_trunc;
  dadd := SFadd dp de;
  dsub := SFsub dp de;
  dmul := SFmul dp de;
  ddiv := SFdiv dp de;
  dsqrt := SFsqrt dp de;
  dltb := b_ltb;
  dleb := b_leb;
  deqb := b_eqb;
  dround := b_to_int r_round dp de;
  d_of_Z := fun n => of_scaled dp de false n 0;
  d_trunc := b_trunc;
  wid := b_conv dp de;
  nar := b_conv sp se
|}.

(** Decimal literals [n * 10^-k]: to double (correctly rounded for the literals of the
    code, whose digits and power of ten are exact doubles), then to float. *)
Definition dlit (n k : Z) : df FltB := SFdiv dp de (of_scaled dp de false n 0)
                                         (of_scaled dp de false (10 ^ k) 0).
Definition slit (n k : Z) : sf FltB := nar (f := FltB) (dlit n k).
