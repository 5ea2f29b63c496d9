(** The answers of the Checks do not depend on the log. *)
From Coq Require Import ZArith List Bool.
From Verif Require Import Outcome Num State Base ModelUtils ModelStep ModelCheckLoop LogProofs LogClaims.
Import ListNotations.
Open Scope Z_scope.

Section Again.
  Context {A : Num}.
  Variable l : list warning.
  Notation lg := (relog (A := A) (pre l)).

  Lemma warn_pre (s : sim A) w : warn (lg s) w = lg (warn s w).
  Proof. unfold warn, relog, pre. cbn. rewrite app_assoc. reflexivity. Qed.

  Lemma volume_pre tol cz v (s : sim A) :
    check_volume tol cz v (lg s) = omap (relog1 (pre l)) (check_volume tol cz v s).
  Proof.
    unfold check_volume. change (subtract_records (lg s)) with (subtract_records s).
    apply bind_omap. intros f. change (all_cells (lg s)) with (all_cells s).
    destruct (existsb _ _); [rewrite warn_pre; reflexivity|].
    change (terrain_volume cz (lg s)) with (terrain_volume cz s). apply bind_omap. intros x.
    change (body_soil_volume cz (lg s)) with (body_soil_volume cz s). apply bind_omap. intros y.
    apply bind_omap. intros z. destruct (negb _); [rewrite warn_pre|]; reflexivity.
  Qed.

  Lemma soil_pre tol c (s : sim A) :
    check_soil_loop tol c (lg s) = omap (relog1 (pre l)) (check_soil_loop tol c s).
  Proof.
    induction c as [|[i j] c IH]; cbn [check_soil_loop]; [reflexivity|]. unfold guard.
    change (inb (lg s) i j) with (inb s i j). destruct (inb s i j); [|reflexivity].
    change (cell_ok tol (lg s) i j) with (cell_ok tol s i j).
    destruct (cell_ok tol s i j); [exact IH|]. rewrite warn_pre. reflexivity.
  Qed.

  Lemma check_pre g P v (s : sim A) :
    check g P v (lg s) = omap (relog1 (pre l)) (check g P v s).
  Proof.
    unfold check. rewrite volume_pre. apply omap_bind. intros [s1 a]. unfold relog1 at 1. cbn [fst snd].
    unfold check_soil. change (body_area (lg s1)) with (body_area s1). rewrite soil_pre.
    apply omap_bind. intros [s2 b]. reflexivity.
  Qed.
End Again.

Lemma check_any_log {A : Num} g (P : params A) v (s1 s2 s1' : sim A) ab : same_but_log s1 s2 ->
  check g P v s1 = Ok (s1', ab) ->
  exists s2' new, check g P v s2 = Ok (s2', ab) /\ same_but_log s1' s2' /\ same_but_log s1 s1' /\
    wlog s1' = (wlog s1 ++ new)%list /\ wlog s2' = (wlog s2 ++ new)%list /\
    Forall (fun w => of_step w = false) new.
Proof.
  intros S E. assert (R : same_but_log s1 s1) by (repeat split).
  destruct (check_log g P v s1 s1' ab E) as (n & L & K).
  rewrite (relog_pre s1 s1 R), check_pre in E.
  assert (E2 : check g P v s2 = omap (relog1 (pre (wlog s2))) (check g P v (no_log s1)))
    by (rewrite <- check_pre, <- (relog_pre s1 s2 S); reflexivity).
  destruct (check g P v (no_log s1)) as [[s0 ab0]| |]; [|discriminate E|discriminate E].
  cbn [omap] in E. apply ok_inj in E. unfold relog1 in E. cbn [fst snd] in E.
  apply pair_equal_spec in E as [E <-]. cbn [omap] in E2.
  exists (relog (pre (wlog s2)) s0), (wlog s0). split; [exact E2|].
  split; [rewrite <- E; repeat split|].
  split.
  { assert (F : forall X (f : sim A -> X), f (relog only_step s1') = f (relog only_step s1))
      by (intros; rewrite K; reflexivity).
    pose proof (F _ nx). pose proof (F _ ny). pose proof (F _ equilibrium). pose proof (F _ terrain).
    pose proof (F _ body). pose proof (F _ body_soil). pose proof (F _ records). pose proof (F _ body_area).
    pose proof (F _ relax_area). pose proof (F _ impact_area). pose proof (F _ rng).
    cbn [relog nx ny equilibrium terrain body body_soil records body_area relax_area impact_area rng] in *.
    unfold same_but_log. repeat match goal with |- _ /\ _ => split end;
      first [assumption | symmetry; assumption]. }
  assert (N : n = wlog s0).
  { rewrite <- E in L. cbn [relog wlog] in L. unfold pre in L. apply app_inv_head in L. symmetry. exact L. }
  split; [rewrite <- E; reflexivity|]. split; [reflexivity|]. rewrite <- N.
  assert (Z : only_step (wlog s1 ++ n) = only_step (wlog s1)).
  { rewrite <- L. exact (f_equal wlog K). }
  unfold only_step in Z. rewrite filter_app in Z. rewrite <- (app_nil_r (filter of_step (wlog s1))) in Z at 2.
  apply app_inv_head in Z. apply Forall_forall. intros w W.
  destruct (of_step w) eqn:Q; [|reflexivity].
  assert (X : In w (filter of_step n)) by (apply filter_In; split; assumption). rewrite Z in X. destruct X.
Qed.

Lemma check_again {A : Num} g (P : params A) v (s s' : sim A) ab : check g P v s = Ok (s', ab) ->
  exists s'', check g P v s' = Ok (s'', ab) /\ same_but_log s s''.
Proof.
  intros E. assert (R : same_but_log s s) by (repeat split).
  destruct (check_any_log g P v s s s' ab R E) as (_ & _ & _ & _ & S & _).
  destruct (check_any_log g P v s s' s' ab S E) as (s'' & new & E' & S' & _).
  exists s''. split; [exact E'|].
  unfold same_but_log in *. intuition (etransitivity; eassumption).
Qed.
