(** Results of modelled C++ functions.

    [Ok v]       the call returns [v];
    [UB r]       the call has undefined behaviour (see [ub]);
    [OutOfFuel]  a loop without syntactic bound used up the fuel given to the
                 model; it is never a result of the C++ code. *)
From Coq Require Import ZArith List Bool.
Import ListNotations.
Open Scope Z_scope.

Inductive ub : Type :=
| OutOfRange    (* std::vector::operator[] with an index out of range *)
| Unset         (* use of an uninitialised local variable *)
| BadCast       (* float/double to int conversion not representable *)
| IntOverflow.  (* signed overflow *)

Inductive outcome (A : Type) : Type :=
| Ok (a : A)
| UB (r : ub)
| OutOfFuel.
Arguments Ok {A} _.
Arguments UB {A} _.
Arguments OutOfFuel {A}.

Definition bind {A B} (m : outcome A) (k : A -> outcome B) : outcome B :=
  match m with
  | Ok a => k a
  | UB r => UB r
  | OutOfFuel => OutOfFuel
  end.

Notation "x <- m ;; k" := (bind m (fun x => k))
  (at level 61, m at next level, right associativity).
Notation "' p <- m ;; k" := (bind m (fun p => k))
  (at level 61, p pattern, m at next level, right associativity).

(** Continue only if the access is in range. *)
Definition guard {A} (b : bool) (k : outcome A) : outcome A :=
  if b then k else UB OutOfRange.

(** [for (x : l) s = f(x, s);] *)
Fixpoint for_each {A S} (l : list A) (f : A -> S -> outcome S) (s : S)
  : outcome S :=
  match l with
  | [] => Ok s
  | x :: l' => s' <- f x s ;; for_each l' f s'
  end.

(** [lo, lo+1, ..., hi-1]: the values of [for (auto i = lo; i < hi; i++)]. *)
Definition zrange (lo hi : Z) : list Z :=
  map (fun k => lo + Z.of_nat k) (seq 0 (Z.to_nat (hi - lo))).

(** C++ [int] (32 bits): signed arithmetic outside this range is undefined. *)
Definition int_ok (z : Z) : bool :=
  (-2147483648 <=? z) && (z <=? 2147483647).
Definition chk_int (z : Z) : outcome Z :=
  if int_ok z then Ok z else UB IntOverflow.
