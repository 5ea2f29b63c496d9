(** Floating point arithmetic used by the geometry half of the simulator.

    The C++ code computes in [float] and, where a [double] literal or a C library
    function takes part, in [double]. The record lists the operations it performs;
    it carries no laws. The model below follows the usual arithmetic conversions of
    the C++ expressions, assuming that [float] expressions are not evaluated in a
    wider format (FLT_EVAL_METHOD = 0) nor contracted to fused operations. *)
From Coq Require Import ZArith List Bool.
From Verif Require Import Outcome.
Import ListNotations.
Open Scope Z_scope.

Record flt : Type := mkFlt {
  sf : Type;                         (* float *)
  df : Type;                         (* double *)
  sadd : sf -> sf -> sf;
  ssub : sf -> sf -> sf;
  smul : sf -> sf -> sf;
  sdiv : sf -> sf -> sf;
  sopp : sf -> sf;
  sabs : sf -> sf;                   (* std::abs(float) *)
  ssqrt : sf -> sf;                  (* std::sqrt(float) *)
  sltb : sf -> sf -> bool;           (* a < b *)
  seqb : sf -> sf -> bool;           (* a == b *)
  sneg : sf -> bool;                 (* sign bit *)
  sfloor : sf -> sf;                 (* std::floor(float) *)
  sceil : sf -> sf;                  (* std::ceil(float) *)
  s_of_Z : Z -> sf;                  (* int to float *)
  s_trunc : sf -> option Z;          (* float to integer; None if not finite *)
  dadd : df -> df -> df;
  dsub : df -> df -> df;
  dmul : df -> df -> df;
  ddiv : df -> df -> df;
  dsqrt : df -> df;                  (* std::sqrt(double) *)
  dltb : df -> df -> bool;
  dleb : df -> df -> bool;           (* a <= b *)
  deqb : df -> df -> bool;
  dround : df -> df;                 (* ::round(double) *)
  d_of_Z : Z -> df;                  (* int to double *)
  d_trunc : df -> option Z;          (* double to integer; None if not finite *)
  wid : sf -> df;                    (* float to double *)
  nar : df -> sf                     (* double to float *)
}.

Arguments sadd {_} _ _.
Arguments ssub {_} _ _.
Arguments smul {_} _ _.
Arguments sdiv {_} _ _.
Arguments sopp {_} _.
Arguments sabs {_} _.
Arguments ssqrt {_} _.
Arguments sltb {_} _ _.
Arguments seqb {_} _ _.
Arguments sneg {_} _.
Arguments sfloor {_} _.
Arguments sceil {_} _.
Arguments s_of_Z {_} _.
Arguments s_trunc {_} _.
Arguments dadd {_} _ _.
Arguments dsub {_} _ _.
Arguments dmul {_} _ _.
Arguments ddiv {_} _ _.
Arguments dsqrt {_} _.
Arguments dltb {_} _ _.
Arguments dleb {_} _ _.
Arguments deqb {_} _ _.
Arguments dround {_} _.
Arguments d_of_Z {_} _.
Arguments d_trunc {_} _.
Arguments wid {_} _.
Arguments nar {_} _.

Declare Scope flt_scope.
Delimit Scope flt_scope with flt.
(** One [!] for float, two for double. *)
Notation "a +! b" := (sadd a b) (at level 50, left associativity) : flt_scope.
Notation "a -! b" := (ssub a b) (at level 50, left associativity) : flt_scope.
Notation "a *! b" := (smul a b) (at level 40, left associativity) : flt_scope.
Notation "a /! b" := (sdiv a b) (at level 40, left associativity) : flt_scope.
Notation "a <! b" := (sltb a b) (at level 70) : flt_scope.
Notation "a ==! b" := (seqb a b) (at level 70) : flt_scope.
Notation "a +!! b" := (dadd a b) (at level 50, left associativity) : flt_scope.
Notation "a -!! b" := (dsub a b) (at level 50, left associativity) : flt_scope.
Notation "a *!! b" := (dmul a b) (at level 40, left associativity) : flt_scope.
Notation "a /!! b" := (ddiv a b) (at level 40, left associativity) : flt_scope.
Notation "a <!! b" := (dltb a b) (at level 70) : flt_scope.
Notation "a <=!! b" := (dleb a b) (at level 70) : flt_scope.

Section Derived.
  Context {K : flt}.
  Open Scope flt_scope.

  Definition s0 : sf K := s_of_Z 0.
  (** Literals 0.0, 0.5 and 1e-10. *)
  Definition d0 : df K := d_of_Z 0.
  Definition d1 : df K := d_of_Z 1.
  Definition d2 : df K := d_of_Z 2.
  Definition d_half : df K := d_of_Z 1 /!! d_of_Z 2.
  Definition d_tiny : df K := d_of_Z 1 /!! d_of_Z 10000000000.

  (** std::min, std::max; the versions on initializer lists fold to the left. *)
  Definition smin (a b : sf K) : sf K := if b <! a then b else a.
  Definition smax (a b : sf K) : sf K := if a <! b then b else a.
  Definition dmin (a b : df K) : df K := if b <!! a then b else a.
  Definition dmax (a b : df K) : df K := if a <!! b then b else a.
  Definition smin_list (a : sf K) (l : list (sf K)) : sf K := fold_left smin l a.
  Definition smax_list (a : sf K) (l : list (sf K)) : sf K := fold_left smax l a.

  (** [static_cast<int>]: undefined if the truncated value is not an int. *)
  Definition s_int (x : sf K) : outcome Z :=
    match s_trunc x with
    | Some n => if int_ok n then Ok n else UB BadCast
    | None => UB BadCast
    end.
  Definition d_int (x : df K) : outcome Z :=
    match d_trunc x with
    | Some n => if int_ok n then Ok n else UB BadCast
    | None => UB BadCast
    end.
End Derived.

(** [std::vector<float>] of size 3 (positions) and 4 (quaternions). *)
Record vec (T : Type) : Type := mkVec { vx : T; vy : T; vz : T }.
Record quat (T : Type) : Type := mkQuat { qw : T; qx : T; qy : T; qz : T }.
Arguments mkVec {T} _ _ _.
Arguments vx {T} _.
Arguments vy {T} _.
Arguments vz {T} _.
Arguments mkQuat {T} _ _ _ _.
Arguments qw {T} _.
Arguments qx {T} _.
Arguments qy {T} _.
Arguments qz {T} _.

Definition vmap {T U} (f : T -> U) (a : vec T) : vec U :=
  mkVec (f (vx a)) (f (vy a)) (f (vz a)).
Definition vmap2 {T U V} (f : T -> U -> V) (a : vec T) (b : vec U) : vec V :=
  mkVec (f (vx a) (vx b)) (f (vy a) (vy b)) (f (vz a) (vz b)).
