(** The result of a call does not depend on the fuel, once there is enough. *)
From Coq Require Import ZArith List Bool Lia.
From Verif Require Import Outcome Num State Base ModelRelax ModelIntersect
  ModelBodySoil ModelBodyPos ModelUtils ModelStep.
Import ListNotations.
Open Scope Z_scope.

(** [m] runs out of fuel, or gives the same result as [m']. *)
Definition refines {X} (m m' : outcome X) : Prop := m = OutOfFuel \/ m = m'.

Lemma refines_refl {X} (m : outcome X) : refines m m.
Proof. right; auto. Qed.

Lemma refines_bind {X Y} (m m' : outcome X) (k k' : X -> outcome Y) :
  refines m m' -> (forall x, refines (k x) (k' x)) -> refines (bind m k) (bind m' k').
Proof.
  intros [->| ->] Hk; [left; auto|]. destruct m' as [x| |]; cbn; auto.
  - right; auto.
  - right; auto.
Qed.

Lemma refines_guard {X} b (m m' : outcome X) :
  refines m m' -> refines (guard b m) (guard b m').
Proof. destruct b; cbn; auto using refines_refl. Qed.

Lemma refines_for_each {X S} (f f' : X -> S -> outcome S) l :
  (forall x s, refines (f x s) (f' x s)) ->
  forall s, refines (for_each l f s) (for_each l f' s).
Proof.
  intros H. induction l as [|x l IH]; intros s; cbn; [apply refines_refl|].
  apply refines_bind; auto.
Qed.

Lemma refines_ok {X} (m m' : outcome X) x : refines m m' -> m = Ok x -> m' = Ok x.
Proof. intros [H|H] E; congruence. Qed.

Section Fuel.
  Context {A : Num}.

  Lemma explore_fuel frame (tol : F A) n : forall n' s w max_h i j d pp,
    (n <= n')%nat ->
    refines (explore frame tol n s w max_h i j d pp) (explore frame tol n' s w max_h i j d pp).
  Proof.
    induction n as [|n IH]; intros n' s w max_h i j d pp Hn; destruct n' as [|n'];
      try lia; cbn [explore]; destruct (negb (w_wall w) && fltb tol (w_h w));
      try (left; reflexivity); try apply refines_refl.
    apply refines_bind; [apply refines_refl|]. intros [s1 w1].
    apply refines_guard. apply IH. lia.
  Qed.

  Lemma explore_all_fuel frame (tol : F A) n n' dirs : (n <= n')%nat ->
    forall s ind ind_t i j h,
    refines (explore_all frame tol n dirs s ind ind_t i j h)
            (explore_all frame tol n' dirs s ind ind_t i j h).
  Proof.
    intros Hn. induction dirs as [|d dirs IH]; intros s ind ind_t i j h; cbn [explore_all].
    - apply refines_refl.
    - apply refines_bind; [apply explore_fuel; auto|]. intros [s1 w1].
      destruct (fltb (w_h w1) tol); [apply refines_refl|apply IH].
  Qed.

  Lemma move_record_fuel frame (tol : F A) n n' nn e s dirs : (n <= n')%nat ->
    refines (move_record frame tol n nn e s dirs) (move_record frame tol n' nn e s dirs).
  Proof.
    intros Hn. unfold move_record. apply refines_guard.
    destruct (body_absent _ _ _ _); [apply refines_refl|].
    destruct (_ && _); [|apply refines_refl].
    cbv zeta.
    match goal with |- context [let '(_, _) := ?x in _] => destruct x as [h1 s1] end.
    destruct (shuffle _ _) as [dirs1 r].
    apply refines_bind; [apply explore_all_fuel; auto|]. intros [s2 h2]. apply refines_refl.
  Qed.

  Lemma move_records_fuel frame (tol : F A) n : forall n' w w' nn s dirs,
    (n <= n')%nat -> (w <= w')%nat ->
    refines (move_records frame tol n w nn s dirs) (move_records frame tol n' w' nn s dirs).
  Proof.
    induction n as [|n IH]; intros n' w w' nn s dirs Hn Hw; destruct n' as [|n'];
      try lia; cbn [move_records]; destruct (nth_error (records s) nn);
      try (left; reflexivity); try apply refines_refl.
    apply refines_bind; [apply move_record_fuel; auto|]. intros [s1 d1].
    apply IH; lia.
  Qed.

  Lemma spread_fuel (tol : F A) n : forall n' dirs s i j pp h,
    (n <= n')%nat ->
    refines (spread tol n dirs s i j pp h) (spread tol n' dirs s i j pp h).
  Proof.
    induction n as [|n IH]; intros n' dirs s i j pp h Hn; destruct n' as [|n'];
      try lia; cbn [spread]; destruct (fltb tol h);
      try (left; reflexivity); try apply refines_refl.
    apply refines_bind; [apply refines_refl|]. intros [s1 h1]. apply IH. lia.
  Qed.

  Lemma move_intersecting_cells_fuel frame (tol : F A) n n' s :
    (n <= n')%nat ->
    refines (move_intersecting_cells frame tol n s) (move_intersecting_cells frame tol n' s).
  Proof.
    intros Hn. unfold move_intersecting_cells. apply refines_bind.
    - unfold move_intersecting_body_soil. apply move_records_fuel; auto.
    - intros s1. unfold move_intersecting_body.
      apply refines_bind; [apply refines_refl|]. intros cells.
      apply refines_bind; [|intros [s2 d2]; apply refines_refl].
      apply refines_for_each. intros [[ind i] j] [s2 d2]. unfold move_terrain_cell.
      destruct (fltb _ _); [apply refines_refl|].
      destruct (shuffle _ _) as [d3 r].
      apply refines_bind; [apply spread_fuel; auto|]. intros; apply refines_refl.
  Qed.

  Theorem step_fuel G g P n n' p w :
    (n <= n')%nat -> refines (step (A := A) G g P n p w) (step G g P n' p w).
  Proof.
    intros Hn. unfold step. destruct w as [s old].
    destruct (g_moved G old p) as [moved far]. cbv zeta.
    destruct (negb moved); [apply refines_refl|].
    apply refines_bind; [apply refines_refl|]. intros [a walls].
    apply refines_bind; [apply refines_refl|]. intros s1.
    apply refines_bind; [apply refines_refl|]. intros s2.
    apply refines_bind; [apply move_intersecting_cells_fuel; auto|]. intros s3.
    apply refines_refl.
  Qed.

  Theorem run_fuel G g P n n' ps : (n <= n')%nat ->
    forall w, refines (run (A := A) G g P n ps w) (run G g P n' ps w).
  Proof.
    intros Hn. induction ps as [|p ps IH]; intros w; cbn [run]; [apply refines_refl|].
    apply refines_bind; [apply step_fuel; auto|]. intros [w1 b]. apply IH.
  Qed.
End Fuel.
