(** Concrete cases that meet the hypotheses of the properties of Step. *)
From Coq Require Import ZArith List Bool Lia.
From Verif Require Import Outcome Num State Base Spec ModelRelax ModelIntersect
  ModelBodySoil ModelBodyPos ModelUtils ModelStep Spec2 StepProofs RunProofs CheckProofs
  InitProofs PropLemmas Demo.
Import ListNotations.
Open Scope Z_scope.

Lemma demo_hypotheses :
  grid_ok demo_grid /\ params_ok demo_grid demo_params /\
  geom_ok demo_grid demo_geom demo_legal demo_near /\
  state_ok demo_grid demo_geom demo_legal demo_near demo_mid /\ demo_legal 1 /\
  demo_step = Ok demo_stepped.
Proof.
  split; [exact demo_grid_ok|]. split; [exact demo_params_ok|]. split; [exact demo_geom_ok|].
  split; [exact demo_mid_ok|]. split; [unfold demo_legal; lia|exact demo_step_ok].
Qed.

Lemma step_test_spec o test : step_test o test = true ->
  exists r, o = Ok r /\ test (fst (fst r)) (snd (fst r)) (snd r) = true.
Proof. destruct o as [[[s p] b]| |]; [|discriminate|discriminate]. exists (s, p, b). auto. Qed.

Lemma demo_step_test test : step_test demo_step test = true ->
  test (fst (fst demo_stepped)) (snd (fst demo_stepped)) (snd demo_stepped) = true.
Proof.
  intros H. apply step_test_spec in H as (r & E & H). rewrite demo_step_ok in E.
  assert (Q : demo_stepped = r) by congruence. rewrite Q. exact H.
Qed.

Lemma demo_updates : demo_step = Ok demo_stepped /\ snd demo_stepped = true.
Proof.
  split; [exact demo_step_ok|].
  apply (demo_step_test (fun _ _ b => b)). vm_compute. reflexivity.
Qed.

Lemma demo_equilibrium : demo_step = Ok demo_stepped /\ snd demo_stepped = true /\
  equilibrium (fst (fst demo_stepped)) = true.
Proof.
  split; [exact demo_step_ok|]. split; [apply demo_updates|].
  apply (demo_step_test (fun s _ _ => equilibrium s)). vm_compute. reflexivity.
Qed.

Lemma demo_carries : exists w', demo_run [0; 1] = Ok w' /\ soil_on (fst w') 0 6 4.
Proof.
  destruct (ends_spec _ _ demo_two) as (w' & E & H). exists w'. split; [exact E|].
  repeat (apply andb_prop in H as [H ?]). right. change (0 + 1) with 1.
  match goal with Q : (body_soil (fst w') 1 6 4 =? 20) = true |- _ => apply Z.eqb_eq in Q; rewrite Q end.
  discriminate.
Qed.

Definition answers (b : bool) (o : outcome (sim N * bool)) : bool :=
  match o with Ok (_, b') => Bool.eqb b b' | _ => false end.

Lemma demo_volume : exists w',
  state_ok demo_grid demo_geom demo_legal demo_near demo_start /\
  Forall demo_legal [0; 1] /\
  check_volume (A := N) (p_tol demo_params) (cell_z demo_grid) 63 (fst demo_start) =
    Ok (fst demo_start, true) /\
  demo_run [0; 1] = Ok w' /\ wlog (fst w') = wlog (fst demo_start) /\
  abs_volume (cell_z demo_grid) (fst w') <= 2147483647.
Proof.
  assert (T : ends (demo_run [0; 1]) (fun s _ =>
     (length (wlog s) =? 0)%nat && (abs_volume (cell_z demo_grid) s <=? 2147483647)) = true)
    by (vm_compute; reflexivity).
  destruct (ends_spec _ _ T) as (w' & E & H). apply andb_prop in H as [H1 H2].
  exists w'. split; [exact demo_start_ok|]. split.
  { repeat constructor; discriminate. }
  split.
  { pose proof (check_volume_result (upm := zunits 100) (cell_z demo_grid) eq_refl
      (p_tol demo_params) 63 (fst demo_start)) as R.
    assert (B : answers true (check_volume (A := N) (p_tol demo_params) (cell_z demo_grid) 63
                  (fst demo_start)) = true) by (vm_compute; reflexivity).
    destruct R as [(_ & _ & Q)|(_ & w & Q)];
      [constructor|vm_compute; discriminate|exact Q|rewrite Q in B; discriminate]. }
  split; [exact E|]. split.
  - apply Nat.eqb_eq in H1. destruct (wlog (fst w')); [reflexivity|discriminate].
  - apply Z.leb_le. exact H2.
Qed.

(** ** Before MoveIntersectingCells: the terrain goes through the body, and the soil of
    the lower layer through the upper layer *)
Definition here (i j : Z) : bool := (i =? 4) && (j =? 4).
Definition pick (a b c d k : Z) : Z :=
  if k =? 0 then a else if k =? 1 then b else if k =? 2 then c else if k =? 3 then d else 0.
Definition crossing : sim N :=
  @mkSim N 9 9 false
    (fun i j => if here i j then 30 else 10)
    (fun k i j => if here i j then pick 0 10 40 50 k else 0)
    (fun k i j => if here i j then pick 10 60 0 0 k else 0)
    [@mkRec N 0 4 4 (4, 4, 10) 50]
    (mkArea 2 7 2 7) (mkArea 2 7 2 7) (mkArea 2 7 2 7) demo_rng [].

Lemma crossing_body k i j : body_at crossing k i j -> i = 4 /\ j = 4.
Proof.
  unfold body_at. cbn. destruct (here i j) eqn:E; [|intros [H|H]; congruence].
  intros _. unfold here in E. lia.
Qed.

Lemma crossing_placed : placed demo_grid crossing.
Proof.
  split; [split; reflexivity|]. split.
  { split; [cbn; lia|]. split; [cbn; lia|]. split.
    - intros i j _. split; [|split].
      + split; [cbn; destruct (here i j); [exists 3|exists 1]; reflexivity|].
        intros k _. unfold aligned. cbn. destruct (here i j); [|split; exists 0; reflexivity].
        unfold pick.
        destruct (k =? 0), (k =? 1), (k =? 2), (k =? 3);
          split; ((exists 0; reflexivity) || (exists 1; reflexivity) || (exists 4; reflexivity) ||
                  (exists 5; reflexivity) || (exists 6; reflexivity)).
      + split.
        * intros k Hk H. destruct (crossing_body k i j H) as [-> ->].
          split; [unfold inside; cbn; lia|].
          destruct Hk as [-> | ->]; vm_compute; reflexivity.
        * intros H _. destruct (crossing_body 0 i j H) as [-> ->].
          left. vm_compute. reflexivity.
      + intros k Hk. unfold soil_on, soil_height, crossing.
        cbn [records recorded body_soil body nx ny]. unfold matches. cbn [e_ind e_i e_j e_h].
        destruct (here i j) eqn:E.
        * assert (i = 4 /\ j = 4) as [-> ->] by (unfold here in E; lia).
          destruct Hk as [-> | ->]; change (0 + 1) with 1; change (2 + 1) with 3; cbn.
          -- split; [|reflexivity]. intros _. split; [right; cbn; discriminate|].
             split; [reflexivity|]. eexists. split; [left; reflexivity|reflexivity].
          -- split; [intros [H|H]; congruence|reflexivity].
        * split; [intros [H|H]; congruence|].
          unfold here in E.
          assert (M : (0 =? k) && (4 =? i) && (4 =? j) = false) by lia. rewrite M. reflexivity.
    - constructor; [|constructor]. split; [left; reflexivity|].
      split; [unfold inside; cbn; lia|]. cbn. split; [lia|]. split; [exists 5; reflexivity|exact I]. }
  split.
  { intros k i j _ _ H. destruct (crossing_body k i j H) as [-> ->]. unfold in_area. cbn. lia. }
  split; unfold within_grid; cbn; lia.
Qed.

Definition after (s : sim N) : outcome (sim N * sim N) :=
  s1 <- move_intersecting_cells (A := N) (g_frame demo_geom 0) (p_tol demo_params) 300 s ;;
  s2 <- relax_loop (A := N) demo_geom demo_grid demo_params 0 5 (set_equilibrium s1 false) ;;
  Ok (s1, s2).
Definition finishes {X} (o : outcome X) : bool := match o with Ok _ => true | _ => false end.

Lemma after_spec s : finishes (after s) = true -> exists s1 s2,
  move_intersecting_cells (A := N) (g_frame demo_geom 0) (p_tol demo_params) 300 s = Ok s1 /\
  relax_loop (A := N) demo_geom demo_grid demo_params 0 5 (set_equilibrium s1 false) = Ok s2.
Proof.
  unfold after. generalize 300%nat. intros n.
  destruct (move_intersecting_cells (A := N) (g_frame demo_geom 0) (p_tol demo_params) n s)
    as [s1| |]; [|discriminate|discriminate]. cbn [bind].
  destruct (relax_loop (A := N) demo_geom demo_grid demo_params 0 5 (set_equilibrium s1 false))
    as [s2| |] eqn:E2; [|discriminate|discriminate]. eauto.
Qed.

Lemma crossing_runs : exists s1 s2,
  placed demo_grid crossing /\
  ~ terrain_below crossing /\ ~ soil_below crossing /\
  move_intersecting_cells (A := N) (g_frame demo_geom 0) (p_tol demo_params) 300 crossing = Ok s1 /\
  relax_loop (A := N) demo_geom demo_grid demo_params 0 5 (set_equilibrium s1 false) = Ok s2.
Proof.
  destruct (after_spec crossing) as (s1 & s2 & E1 & E2); [vm_compute; reflexivity|].
  exists s1, s2.
  split; [exact crossing_placed|]. split; [|split; [|split; [exact E1|exact E2]]].
  - intros H. assert (Q : 30 <= 0); [|lia].
    apply (H 4 4 0); [split; cbn; lia|left; reflexivity|right; vm_compute; discriminate].
  - intros H. assert (Q : 60 <= 40); [|lia].
    apply (H 4 4 0); [split; cbn; lia|left; reflexivity|left; vm_compute; discriminate
      |left; vm_compute; discriminate|vm_compute; reflexivity].
Qed.

(** ** Soil that has to be removed *)
(** Pose 0 is a plate; pose 1 closes a box around it. *)
Definition box_walls (p : Z) : list (list cell3) :=
  if p =? 0 then [[(4, 4, 6)]]
  else [[(4, 4, 6)]; [(4, 4, 8)];
        flat_map (fun k => [(3, 3, k); (3, 4, k); (3, 5, k); (4, 3, k); (4, 5, k);
                            (5, 3, k); (5, 4, k); (5, 5, k)]) [6; 7; 8; 9; 10]].
Definition box_geom : geom N :=
  @mkGeom N Z
    (fun old new => (negb (old =? new), false))
    (fun p i j z => (i, j, z))
    (fun p => Ok (mkArea 2 7 2 7, box_walls p))
    (fun _ p x => let '(i, j, z) := x in Ok (@mkReloc N true true true i j z)).

Lemma box_geom_ok : geom_ok demo_grid box_geom (fun _ => True) demo_near.
Proof.
  assert (Q : forall p w i j k, In w (box_walls p) -> In (i, j, k) w ->
    3 <= i <= 5 /\ 3 <= j <= 5 /\ 0 <= k <= 12).
  { intros p w i j k Hw Hc. unfold box_walls in Hw.
    assert (T : Forall (fun w => Forall (fun c => let '(i, j, k) := c in
       3 <= i <= 5 /\ 3 <= j <= 5 /\ 0 <= k <= 12) w) (box_walls p)).
    { unfold box_walls. destruct (p =? 0); cbn; repeat constructor; lia. }
    unfold box_walls in T. rewrite Forall_forall in T. specialize (T w Hw).
    rewrite Forall_forall in T. exact (T _ Hc). }
  split.
  - intros p _. eexists _, _. split; [reflexivity|]. split; [split; [|split]|].
    + unfold within_grid. cbn. lia.
    + intros w Hw. unfold box_walls in Hw.
      destruct (p =? 0); cbn in Hw; repeat (destruct Hw as [<-|Hw]; [discriminate|]); destruct Hw.
    + intros w i j k Hw Hc. pose proof (Q p w i j k Hw Hc). unfold in_area. cbn. lia.
    + intros w i j k Hw Hc. pose proof (Q p w i j k Hw Hc). unfold demo_near. cbn. lia.
  - intros p p' [[i j] z] _ _ [Hi Hj]. eexists. split; [reflexivity|]. cbn. lia.
Qed.

Definition box_start : world box_geom :=
  (with_terrain (fun _ _ => 50) (new_sim (A := N) demo_grid demo_rng []), -1).
Definition box_test (o : outcome (world box_geom)) (test : sim N -> bool) : bool :=
  match o with Ok (s, _) => test s | _ => false end.

Lemma box_start_ok : state_ok demo_grid box_geom (fun _ => True) demo_near box_start.
Proof.
  exact (with_terrain_ok (upm := zunits 100) demo_grid box_geom (fun _ => True) demo_near
    (fun _ _ => 50) demo_rng [] (-1) demo_grid_ok (fun _ _ => ex_intro _ 5 eq_refl)).
Qed.

Definition box_params : params N := @mkParams N 10 1 2 1.
Lemma box_params_ok : params_ok demo_grid box_params.
Proof. unfold params_ok, aligned. cbn. do 3 (split; [lia|]). split; [exists 1; lia|]. lia. Qed.

Lemma box_removes : box_test (run (A := N) box_geom demo_grid box_params demo_fuel [0; 1] box_start)
  (fun s => match wlog s with WRemoved :: _ => true | _ => false end &&
            (total_soil s <? total_soil (fst box_start))) = true.
Proof. vm_compute. reflexivity. Qed.

Lemma box_hypotheses :
  params_ok demo_grid box_params /\ geom_ok demo_grid box_geom (fun _ => True) demo_near /\
  state_ok demo_grid box_geom (fun _ => True) demo_near box_start /\
  exists w', run (A := N) box_geom demo_grid box_params demo_fuel [0; 1] box_start = Ok w' /\
    In WRemoved (wlog (fst w')) /\ total_soil (fst w') < total_soil (fst box_start).
Proof.
  split; [exact box_params_ok|]. split; [exact box_geom_ok|]. split; [exact box_start_ok|].
  generalize box_removes. generalize (run (A := N) box_geom demo_grid box_params demo_fuel [0; 1] box_start).
  intros [[s p]| |]; [|discriminate|discriminate]. cbn [box_test]. intros H.
  apply andb_prop in H as [H1 H2]. exists (s, p). split; [reflexivity|]. cbn [fst].
  split; [|apply Z.ltb_lt; exact H2].
  destruct (wlog s) as [|[] l]; try discriminate. left. reflexivity.
Qed.
