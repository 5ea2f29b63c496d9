(** The codes returned by CheckUnstableTerrainCell and CheckUnstableBodyCell, whatever
    the arithmetic (NaN included). *)
From Coq Require Import ZArith List Bool Lia.
From Verif Require Import Outcome Num State Base ModelRelax.
Import ListNotations.
Open Scope Z_scope.

Section Codes.
  Context {A : Num}.
  Variable tol : F A.

  (** The first digit tells which body layers are present at the cell. *)
  Definition first_digit (s : sim A) (i j : Z) : Z :=
    match body_absent s 0 i j, body_absent s 2 i j with
    | false, true => 1
    | true, false => 2
    | false, false => 3
    | true, true => 4
    end.

  (** The documented codes (relax.cpp:268-287 and 420-441) with that first digit,
      apart from 30, which CheckUnstableTerrainCell alone may return. *)
  Definition codes (d0 : Z) : list Z :=
    if d0 =? 1 then [10; 13; 14]
    else if d0 =? 2 then [20; 21; 22]
    else if d0 =? 3 then [31; 32; 33; 34]
    else [40].

  Ltac cases :=
    cbv zeta;
    repeat match goal with
    | |- context [if ?b then _ else _] =>
        lazymatch b with
        | context [if _ then _ else _] => fail
        | _ => destruct b eqn:?
        end; cbv beta iota
    end.

  Theorem check_terrain_codes (s : sim A) i j h_min :
    let st := check_unstable_terrain_cell tol s i j h_min in
    st = 0 \/ In st (codes (first_digit s i j)) \/ (st = 30 /\ first_digit s i j = 3).
  Proof.
    unfold check_unstable_terrain_cell, first_digit.
    destruct (body_absent s 0 i j), (body_absent s 2 i j); cbn [andb]; cases;
      vm_compute; auto 10.
  Qed.

  (** No two heights are both below each other. *)
  Hypothesis asym : forall a b : F A, fltb a b = true -> fltb b a = false.

  Theorem check_body_codes (s : sim A) i0 j0 ind i j h_min :
    exists st, check_unstable_body_cell tol s i0 j0 ind i j h_min = Some st /\
      (st = 0 \/ In st (codes (first_digit s i j))).
  Proof.
    unfold check_unstable_body_cell, first_digit.
    destruct (body_absent s 0 i j), (body_absent s 2 i j); cbn [andb];
    try (eexists; split; [reflexivity|]; cases; vm_compute; intuition congruence).
    cases;
    repeat match goal with
    | H : (_ || _) = false |- _ => apply orb_false_iff in H as [? ?]
    | H : fltb ?a ?b = true, H' : context [fltb ?b ?a] |- _ =>
        rewrite (asym a b H) in H'
    | H : context [30 + ?x =? 30] |- _ => change (30 + x =? 30) with false in H
    | H : (30 =? 30) = false |- _ => discriminate H
    | H : (false || false) = true |- _ => discriminate H
    end.
    all: try (eexists; split; [reflexivity|]; vm_compute; intuition congruence).
  Qed.
End Codes.
