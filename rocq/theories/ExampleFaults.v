(** Where the example program does not do what its comments say. *)
From Coq Require Import Reals ZArith List Bool Lra Lia Psatz Ratan SpecFloat.
From Verif Require Import Outcome Num Base Flt FltR FltRFacts FltB State ModelTypes ModelGeometry
  ModelExample SpecGeo GeoProofs PoseProofs TypesProofs InsideProofs GeoClaims WholeClaims
  ExampleProofs ExampleLoop ExampleRun.
Import ListNotations.
Open Scope R_scope.

(** ** A flat trajectory of the blade *)
Definition half_draw : sf FltB := slit 5 1.
Definition zero_draw : sf FltB := slit 0 0.

Lemma nan_plus (x : sf FltB) : sadd (f := FltB) x S754_nan = S754_nan.
Proof. destruct x; reflexivity. Qed.

Lemma flat_c : snd (let '(x_i, z_i, x_min, z_min) := blade_random (K := FltB) zero_draw zero_draw half_draw zero_draw in
  parabola (K := FltB) x_i z_i x_min z_min) = S754_nan.
Proof. vm_compute. reflexivity. Qed.

Lemma flat_nan : forall atn o nn p,
  In p (trajectory_of (K := FltB) atn (blade_random (K := FltB) zero_draw zero_draw half_draw zero_draw) o nn) ->
  vz (fst p) = S754_nan.
Proof.
  intros atn o nn p. pose proof flat_c as C. unfold trajectory_of.
  destruct (blade_random (K := FltB) zero_draw zero_draw half_draw zero_draw) as [[[x_i z_i] x_min] z_min].
  unfold calc_trajectory.
  destruct (parabola (K := FltB) x_i z_i x_min z_min) as [[a b] c]. cbn [snd] in C. subst c.
  intros H. apply in_map_iff in H as (k & <- & _). cbn [fst vz]. apply nan_plus.
Qed.

(** ** The blade turns *)
Lemma blade_turns : exists p q,
  nth_error (trajectory_of (K := FltR) atan (blade_default (K := FltR)) 0 ex_nn) 0 = Some p /\
  nth_error (trajectory_of (K := FltR) atan (blade_default (K := FltR)) 0 ex_nn) (ex_nn - 1) = Some q /\
  vy (snd p) < 0 < vy (snd q).
Proof.
  assert (E : trajectory_of (K := FltR) atan (blade_default (K := FltR)) 0 ex_nn =
    rtrajectory (-2) (/ 10) (/ 10) 0 0 ex_nn).
  { unfold trajectory_of, blade_default, rtrajectory, d0. rred. f_equal; lra. }
  rewrite E, !trajectory_nth by (unfold ex_nn; lia || lra || (right; lra)).
  eexists. eexists. split; [reflexivity|]. split; [reflexivity|]. cbn [snd vy].
  rewrite along_first, along_last by (unfold ex_nn; lia).
  cbn [snd point vy]. unfold slope, Rsqr.
  replace (2 * (/ 10 - 0) * (-2 - / 10) / ((-2 - / 10) * (-2 - / 10))) with (- (2 / 21)) by field.
  replace (2 * (/ 10 - 0) * (2 * / 10 - -2 - / 10) / ((-2 - / 10) * (-2 - / 10))) with (2 / 21) by field.
  rewrite atan_opp. assert (0 < atan (2 / 21)); [|lra].
  rewrite <- atan_0. apply atan_increasing. lra.
Qed.

(** ** The blade leaves the grid *)
Definition ex_blade : rbody :=
  @mkGBody FltR (mkVec (9 / 10) 0 (/ 5)) (mkVec (3 / 4) 0 (3 / 2)) (mkVec (8 / 5) 0 (- (2 / 5))) (9 / 2) v0 qzero.

Lemma ex_blade_built : exists o, rnew_body (list3 o) [9 / 10; 0; / 5] [3 / 4; 0; 3 / 2] [8 / 5; 0; - (2 / 5)] (9 / 2) = Built ex_blade.
Proof.
  exists v0. change [9 / 10; 0; / 5] with (list3 (mkVec (9 / 10) 0 (/ 5))).
  change [3 / 4; 0; 3 / 2] with (list3 (mkVec (3 / 4) 0 (3 / 2))).
  change [8 / 5; 0; - (2 / 5)] with (list3 (mkVec (8 / 5) 0 (- (2 / 5)))).
  rewrite new_body_ok.
  - f_equal. unfold ex_blade. f_equal; apply vec_eq; cbn; lra.
  - unfold body_args_ok, list3, v0; cbn [vx vy vz length].
    repeat split; try lra; intros Q; injection Q; lra.
Qed.

(** The four draws are zero. *)
Lemma blade_leaves : exists p,
  nth_error (trajectory_of (K := FltR) atan (blade_random (K := FltR) 0 0 0 0) 0 ex_nn) (ex_nn - 1) = Some p /\
  forall c, In c [t_r (ecorners ex_blade p); t_l (ecorners ex_blade p)] -> vx c = 46 / 10.
Proof.
  assert (E : trajectory_of (K := FltR) atan (blade_random (K := FltR) 0 0 0 0) 0 ex_nn =
    rtrajectory (-3) (/ 10) 0 (/ 10) 0 ex_nn).
  { unfold trajectory_of, blade_random, rtrajectory, d_half. rred. f_equal; lra. }
  rewrite E, trajectory_nth by (unfold ex_nn; lia || lra || (left; lra)).
  eexists. split; [reflexivity|]. rewrite along_last by (unfold ex_nn; lia).
  replace (point (-3) (/ 10) 0 (/ 10) 0 (2 * 0 - -3)) with ((mkVec 3 0 (/ 10), mkVec 0 0 0) : rvec * rvec).
  2: { unfold point, height, slope, Rsqr. f_equal; apply vec_eq; cbn [vx vy vz]; try lra.
       replace (2 * (/ 10 - / 10) * (2 * 0 - -3 - 0) / ((-3 - 0) * (-3 - 0))) with 0 by lra.
       rewrite atan_0. lra. }
  intros c Hc.
  assert (Q : vx c = vx (t_r (ecorners ex_blade (mkVec 3 0 (/ 10), mkVec 0 0 0))) \/
              vx c = vx (t_l (ecorners ex_blade (mkVec 3 0 (/ 10), mkVec 0 0 0)))).
  { destruct Hc as [<-|[<-|[]]]; auto. }
  clear Hc. revert Q. unfold example_corners. cbn [fst snd t_r t_l]. rewrite !rotation_turn.
  unfold calc_normal, vmap2, vmap, turn, ex_blade. rred. cbn [j_init b_init t_init width vx vy vz].
  rewrite sin_0, cos_0.
  match goal with |- context [?a / sqrt ?q] => set (n := sqrt q); assert (A : a = 0) by lra; rewrite A end.
  unfold Rdiv at 2 5. rewrite !Rmult_0_l. intros [-> | ->]; lra.
Qed.

(** ** A slow body *)
Definition slow_nn : nat := 81.
Definition slow_traj : list (rvec * rvec) := rtrajectory (- (32 / 1000)) (/ 10) 0 (/ 10) 0 slow_nn.
Definition slow_point (k : nat) : rvec * rvec := (mkVec (- (32 / 1000) + INR k * (8 / 10000)) 0 (/ 10), mkVec 0 0 0).

Lemma slow_length : length slow_traj = S 80.
Proof. unfold slow_traj, rtrajectory. rewrite trajectory_length. reflexivity. Qed.
Lemma slow_nth k : (k <= 80)%nat -> nth_error slow_traj k = Some (slow_point k).
Proof.
  intros Hk. unfold slow_traj. rewrite trajectory_nth by (unfold slow_nn; lia || lra || (left; lra)).
  f_equal. unfold slow_point, point.
  assert (Ex : along (- (32 / 1000)) 0 slow_nn k = - (32 / 1000) + INR k * (8 / 10000)).
  { unfold along. replace (INR (slow_nn - 1)) with 80 by (cbn; lra). field. }
  rewrite Ex. f_equal; apply vec_eq; cbn [vx vy vz]; try reflexivity.
  - unfold height. lra.
  - unfold slope. set (x := INR k). unfold Rdiv. 
    match goal with |- - 0 + atan ?u = 0 => replace u with 0 by lra end. rewrite atan_0. lra.
Qed.

Lemma slow_corner k v dy : vx (shifted 0 (fst (slow_point k)) dy v) = vx v - 32 / 1000 + INR k * (8 / 10000) /\
  vy (shifted 0 (fst (slow_point k)) dy v) = vy v + dy /\
  vz (shifted 0 (fst (slow_point k)) dy v) = vz v + / 10.
Proof.
  unfold shifted, turn, vadd, slow_point. cbn [fst vx vy vz]. rewrite sin_0, cos_0. repeat split; lra.
Qed.

Lemma slow_speed v dy : speed (K := FltR) (/ 10)
  (rblend 1 0 (shifted 0 (fst (slow_point 2)) dy v) (shifted 0 (fst (slow_point 3)) dy v))
  (rblend 1 0 (shifted 0 (fst (slow_point 1)) dy v) (shifted 0 (fst (slow_point 2)) dy v)) = 8 / 1000.
Proof.
  rewrite speed_dist. unfold vdist, vlen, dot, vsub, blend, vmap2. rred. cbn [vx vy vz].
  destruct (slow_corner 1 v dy) as (-> & -> & ->). destruct (slow_corner 2 v dy) as (-> & -> & ->).
  destruct (slow_corner 3 v dy) as (-> & -> & ->). cbn [INR].
  match goal with |- sqrt ?q / _ = _ => replace q with (8 / 10000 * (8 / 10000)) by field end.
  rewrite sqrt_square by lra. field.
Qed.

Lemma zceil_eq x n : IZR n - 1 < x <= IZR n -> zceil x = n.
Proof.
  intros H. pose proof (zceil_spec x) as [A B].
  assert (IZR (zceil x) < IZR (n + 1)) by (rewrite plus_IZR; lra).
  assert (IZR n < IZR (zceil x + 1)) by (rewrite plus_IZR; lra).
  apply lt_IZR in H0. apply lt_IZR in H1. lia.
Qed.
Lemma slow_index t n : IZR n - 1 < t * 10 <= IZR n -> (-100 <= n <= 100)%Z -> time_index (K := FltR) (/ 10) t = Ok n.
Proof.
  intros H N. unfold time_index. rred. replace (t / / 10) with (t * 10) by field.
  rewrite (zceil_eq _ n H). change (s_int (K := FltR) (IZR n) = Ok n). rewrite s_int_IZR.
  replace (int_ok n) with true; [reflexivity|]. symmetry. apply int_ok_iff. lia.
Qed.

Lemma slow_corners k : ecorners ex_b (slow_point k) =
  let p := fst (slow_point k) in
  mkCorners (K := FltR)
    (shifted 0 p (- (width ex_b / 2)) (j_init ex_b)) (shifted 0 p (width ex_b / 2) (j_init ex_b))
    (shifted 0 p (- (width ex_b / 2)) (b_init ex_b)) (shifted 0 p (width ex_b / 2) (b_init ex_b))
    (shifted 0 p (- (width ex_b / 2)) (t_init ex_b)) (shifted 0 p (width ex_b / 2) (t_init ex_b)).
Proof. unfold slow_point. apply flat_corners, ex_flat. Qed.

Lemma smax_same (x : R) n : smax_list (K := FltR) x (repeat x n) = x.
Proof.
  destruct (smax_list_in (repeat x n) x) as [H|H]; [exact H|]. apply repeat_spec in H. exact H.
Qed.

Lemma slow_reads_before fuel : (2 <= fuel)%nat -> rplan ex_g ex_b slow_traj fuel = UB OutOfRange.
Proof.
  intros Hf. destruct fuel as [|[|fuel]]; [lia|lia|]. clear Hf.
  set (cs := map (ecorners ex_b) slow_traj).
  assert (Lc : length cs = S 80) by (unfold cs; rewrite map_length; apply slow_length).
  assert (Nc : forall k, (k <= 80)%nat -> nth_error cs k = Some (ecorners ex_b (slow_point k)))
    by (intros k Hk; apply map_nth_error, slow_nth, Hk).
  unfold plan. rewrite (slow_length : @length (vec (sf FltR) * vec (sf FltR)) slow_traj = 81%nat). fold cs.
  rewrite (at_index_Ok slow_traj slow_point 80 slow_length slow_nth) by lia. cbn [bind].
  match goal with |- bind ?x _ = _ => assert (E : x = UB OutOfRange); [|rewrite E; reflexivity] end.
  match goal with |- time_loop _ _ _ _ _ ?d _ ?x _ = _ =>
    replace d with (/ 10) by (unfold total_time; rred; change (Z.of_nat 81 - 1)%Z with 80%Z; lra);
    replace x with (/ 10) by (symmetry; apply dt_start_eq) end.
  assert (Step1 : next_dt (K := FltR) ex_g cs (/ 10) (/ 10) (/ 10) 1 0 = Ok 1).
  { unfold next_dt, d_half. rred. rewrite (slow_index _ 2), (slow_index _ 1) by (lia || lra). cbn [bind].
    unfold blend_corners. rewrite !(at_index_Ok cs (fun k => ecorners ex_b (slow_point k)) 80 Lc Nc) by lia.
    cbn [bind]. change (Z.to_nat 2) with 2%nat. change (Z.to_nat (2 + 1)) with 3%nat.
    change (Z.to_nat 1) with 1%nat. change (Z.to_nat (1 + 1)) with 2%nat.
    rewrite !slow_corners. cbv zeta. cbn [map j_l j_r b_l b_r t_l t_r combine fst snd].
    rewrite !slow_speed. cbn [hd tl].
    change [8 / 1000; 8 / 1000; 8 / 1000; 8 / 1000; 8 / 1000] with (repeat (8 / 1000) 5).
    rewrite smax_same. destruct ex_cells as [Cx Cz]. rewrite Cx, Cz. unfold d_5_4, s0, smin. rred.
    destruct (Reqb _ _) eqn:Q; rbool; [lra|]. clear Q.
    destruct (Rltb _ _) eqn:Q; rbool; [|lra]. f_equal. field. }
  cbn [time_loop]. unfold total_time. rred.
  destruct (Rltb (/ 10 + / 10) 8) eqn:Q; rbool; [|lra]. clear Q.
  rewrite (slow_index _ 1) by (lia || lra). cbn [bind].
  replace ((IZR (1 + 1) * / 10 - / 10) / / 10) with 1 by (rewrite plus_IZR; field).
  replace ((/ 10 - IZR 1 * / 10) / / 10) with 0 by field.
  unfold pose_at at 1. rewrite !(at_index_Ok slow_traj slow_point 80 slow_length slow_nth) by lia. cbn [bind].
  rewrite Step1. cbn [bind].
  match goal with |- bind ?x _ = _ => assert (E : x = UB OutOfRange); [|rewrite E; reflexivity] end.
  pose proof dt_max_eq as Dm. rewrite Dm.
  destruct (Rltb (/ 5) 1) eqn:Q; rbool; [|lra]. clear Q.
  replace (/ 10 + / 5) with (3 / 10) by lra.
  destruct (Rltb (3 / 10 + 1) 8) eqn:Q; rbool; [|lra]. clear Q.
  rewrite (slow_index _ 3) by (lia || lra). cbn [bind].
  unfold pose_at. rewrite !(at_index_Ok slow_traj slow_point 80 slow_length slow_nth) by lia. cbn [bind].
  unfold next_dt, d_half. rred. rewrite (slow_index _ 8), (slow_index _ (-2)) by (lia || lra). cbn [bind].
  unfold blend_corners. rewrite !(at_index_Ok cs (fun k => ecorners ex_b (slow_point k)) 80 Lc Nc) by lia.
  reflexivity.
Qed.
