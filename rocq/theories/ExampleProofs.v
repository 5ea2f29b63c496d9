(** The trajectories of the example program over the real numbers. *)
From Coq Require Import Reals ZArith List Bool Lra Lia Ratan.
From Verif Require Import Outcome Base Flt FltR FltRFacts ModelTypes ModelGeometry ModelExample
  SpecGeo GeoProofs InsideProofs.
Import ListNotations.
Open Scope R_scope.

(** ** The parabola *)
(** Height and slope at [x] of the parabola through (x_i, z_i) with its lowest or highest
    point in (x_min, z_min). *)
Definition height (x_i z_i x_min z_min x : R) : R :=
  z_min + (z_i - z_min) * ((x - x_min) / (x_i - x_min))².
Definition slope (x_i z_i x_min z_min x : R) : R :=
  2 * (z_i - z_min) * (x - x_min) / (x_i - x_min)².

Definition rtrajectory := @calc_trajectory FltR atan.

Lemma parabola_spec x_i z_i x_min z_min a b c :
  x_i <> x_min -> x_min = 0 \/ z_i <> z_min ->
  parabola (K := FltR) x_i z_i x_min z_min = (a, b, c) ->
  forall x, a * x * x + b * x + c = height x_i z_i x_min z_min x /\
            2 * a * x + b = slope x_i z_i x_min z_min x.
Proof.
  intros Hx Hz E x. unfold parabola, s0 in E. rred. unfold height, slope, Rsqr.
  destruct (Reqb x_min 0) eqn:Q; rbool.
  - subst x_min. assert (x_i <> 0) by lra. injection E as <- <- <-. split; field; lra.
  - destruct Hz as [Hz|Hz]; [contradiction|].
    assert (x_i - x_min <> 0) by lra. assert (z_min - z_i <> 0) by lra.
    injection E as <- <- <-. split; field; repeat split; auto.
Qed.

(** X of the point [k]. *)
Definition along (x_i x_min : R) (nn k : nat) : R :=
  x_i + INR k * (2 * (x_min - x_i) / INR (nn - 1)).

Lemma trajectory_x_spec x_i x_min nn k : (2 <= nn)%nat ->
  trajectory_x (K := FltR) x_i x_min nn k = along x_i x_min nn k.
Proof.
  intros Hn. unfold trajectory_x, along, d2. rred.
  replace (Z.of_nat nn - 1)%Z with (Z.of_nat (nn - 1)) by lia.
  rewrite <- !INR_IZR_INZ. reflexivity.
Qed.

Lemma trajectory_length atn x_i z_i x_min z_min o nn :
  length (calc_trajectory (K := FltR) atn x_i z_i x_min z_min o nn) = nn.
Proof.
  unfold calc_trajectory. destruct (parabola _ _ _ _) as [[a b] c].
  rewrite map_length, seq_length. reflexivity.
Qed.

Definition point (x_i z_i x_min z_min o x : R) : rvec * rvec :=
  (mkVec x 0 (height x_i z_i x_min z_min x),
   mkVec 0 (- o + atan (slope x_i z_i x_min z_min x)) 0).

Lemma trajectory_nth x_i z_i x_min z_min o nn k :
  (2 <= nn)%nat -> (k < nn)%nat -> x_i <> x_min -> x_min = 0 \/ z_i <> z_min ->
  nth_error (rtrajectory x_i z_i x_min z_min o nn) k =
    Some (point x_i z_i x_min z_min o (along x_i x_min nn k)).
Proof.
  intros Hn Hk Hx Hz. unfold rtrajectory, calc_trajectory.
  destruct (parabola (K := FltR) x_i z_i x_min z_min) as [[a b] c] eqn:E.
  pose proof (parabola_spec x_i z_i x_min z_min a b c Hx Hz E) as Q.
  erewrite map_nth_error by (apply nth_error_nth' with (d := 0%nat); rewrite seq_length; lia).
  rewrite seq_nth, Nat.add_0_l by lia. rewrite trajectory_x_spec by exact Hn.
  destruct (Q (along x_i x_min nn k)) as [Q1 Q2].
  unfold point, s0. rred. rewrite Q1, Q2. reflexivity.
Qed.

(** The first, lowest and last points. *)
Lemma along_first x_i x_min nn : along x_i x_min nn 0 = x_i.
Proof. unfold along. cbn [INR]. ring. Qed.
Lemma along_last x_i x_min nn : (2 <= nn)%nat -> along x_i x_min nn (nn - 1) = 2 * x_min - x_i.
Proof.
  intros Hn. unfold along. assert (INR (nn - 1) <> 0) by (apply not_0_INR; lia). field. auto.
Qed.
Lemma height_first x_i z_i x_min z_min : x_i <> x_min -> height x_i z_i x_min z_min x_i = z_i.
Proof. intros. unfold height, Rsqr. field. lra. Qed.
Lemma height_last x_i z_i x_min z_min : x_i <> x_min -> height x_i z_i x_min z_min (2 * x_min - x_i) = z_i.
Proof. intros. unfold height, Rsqr. field. lra. Qed.
Lemma height_apex x_i z_i x_min z_min : height x_i z_i x_min z_min x_min = z_min.
Proof. unfold height, Rsqr, Rminus. rewrite Rplus_opp_r. unfold Rdiv. ring. Qed.

Lemma along_between x_i x_min nn k : (2 <= nn)%nat -> (k < nn)%nat ->
  exists u, 0 <= u <= 1 /\ along x_i x_min nn k = x_i + u * (2 * (x_min - x_i)).
Proof.
  intros Hn Hk. exists (INR k / INR (nn - 1)).
  assert (0 < INR (nn - 1)) by (apply lt_0_INR; lia).
  split; [split|].
  - apply Rmult_le_pos; [apply pos_INR|]. left. apply Rinv_0_lt_compat. assumption.
  - apply Rmult_le_reg_r with (INR (nn - 1)); [assumption|].
    unfold Rdiv. rewrite Rmult_assoc, Rinv_l, Rmult_1_r, Rmult_1_l by lra. apply le_INR. lia.
  - unfold along. field. lra.
Qed.

(** The height stays between those of the first and of the lowest point. *)
Lemma height_between x_i z_i x_min z_min u : x_i <> x_min -> 0 <= u <= 1 ->
  exists v, 0 <= v <= 1 /\
  height x_i z_i x_min z_min (x_i + u * (2 * (x_min - x_i))) = z_min + v * (z_i - z_min).
Proof.
  intros Hx Hu. exists (1 - 2 * u)². split.
  - split; [apply Rle_0_sqr|]. unfold Rsqr. nra.
  - unfold height, Rsqr. field. lra.
Qed.

(** ** Turning around Y *)
Definition turn (t : R) (v : rvec) : rvec :=
  mkVec (cos t * vx v - sin t * vz v) (vy v) (sin t * vx v + cos t * vz v).

Lemma quat_turn t : exists e, (e = 1 \/ e = -1) /\
  angle_to_quat (K := FltR) sin cos (mkVec 0 t 0) = mkQuat (e * cos (t / 2)) 0 (e * sin (t / 2)) 0.
Proof.
  assert (S0 : sin (0 / 2) = 0) by (replace (0 / 2) with 0 by field; apply sin_0).
  assert (C0 : cos (0 / 2) = 1) by (replace (0 / 2) with 0 by field; apply cos_0).
  unfold angle_to_quat, d2, s0. rred. cbn [vx vy vz]. rewrite S0, C0.
  destruct (Rltb _ _); [exists 1|exists (-1)]; (split; [auto|]); apply quat_eq; cbn [qw qx qy qz]; ring.
Qed.

Lemma rotation_turn t v :
  calc_rotation_quaternion (K := FltR) (angle_to_quat (K := FltR) sin cos (mkVec 0 t 0)) v = turn t v.
Proof.
  destruct v as [x y z]. destruct (quat_turn t) as (e & He & ->).
  assert (E : e * e = 1) by (destruct He as [-> | ->]; ring).
  destruct (half_angles t) as [Ct St].
  pose proof (sin2_cos2 (t / 2)) as U. unfold Rsqr in U.
  unfold turn. cbn [vx vy vz]. rewrite Ct, St. clear Ct St He.
  unfold calc_rotation_quaternion, multiply_quaternion, s0. rred. cbn [qw qx qy qz vx vy vz].
  set (s := sin (t / 2)) in *. set (c := cos (t / 2)) in *.
  replace (e * c * (e * c) + 0 * 0 + e * s * (e * s) + 0 * 0) with (e * e * (s * s + c * c)) by ring.
  rewrite E, U. unfold Rdiv. rewrite Rmult_1_l, Rinv_1.
  apply vec_eq; cbn [vx vy vz].
  - transitivity (e * e * ((c * c - s * s) * x - 2 * s * c * z)); [ring|rewrite E; ring].
  - transitivity (e * e * (s * s + c * c) * y); [ring|rewrite E, U; ring].
  - transitivity (e * e * (2 * s * c * x + (c * c - s * s) * z)); [ring|rewrite E; ring].
Qed.

Lemma turn_quat t : angle_to_quat (K := FltR) sin cos (mkVec 0 t 0) <> qzero.
Proof.
  destruct (quat_turn t) as (e & He & ->). intros Q. unfold qzero in Q. injection Q as Q1 Q2.
  pose proof (sin2_cos2 (t / 2)) as U. unfold Rsqr in U. destruct He as [-> | ->]; nra.
Qed.

(** Turning by a small angle. *)
Lemma sin_le_abs x : (sin x)² <= x².
Proof.
  assert (Q : forall y, 0 <= y -> - y <= sin y <= y).
  { intros y Hy. destruct (Req_dec y 0) as [-> |N]; [rewrite sin_0; lra|].
    split; [|left; apply sin_lt_x; lra].
    destruct (Rle_dec y 1) as [L|L].
    - pose proof PI2_1. assert (0 <= sin y); [|lra]. apply sin_ge_0; lra.
    - pose proof (SIN_bound y). lra. }
  unfold Rsqr. destruct (Rle_dec 0 x) as [L|L].
  - pose proof (Q x L). nra.
  - pose proof (Q (- x) ltac:(lra)) as H. rewrite sin_neg in H. nra.
Qed.

Lemma turn_near t t' v : vy v = 0 ->
  vdist (turn t v) (turn t' v) <= Rabs (t - t') * vlen v.
Proof.
  intros Y. unfold vdist. pose proof (vlen_nonneg (vsub (turn t v) (turn t' v))).
  assert (0 <= Rabs (t - t') * vlen v).
  { apply Rmult_le_pos; [apply Rabs_pos|apply vlen_nonneg]. }
  apply Rsqr_incr_0; [|assumption|assumption].
  unfold Rsqr at 1. rewrite vlen_sqr. rewrite Rsqr_mult, <- Rsqr_abs. unfold Rsqr at 2. rewrite vlen_sqr.
  destruct v as [x y z]. cbn [vy] in Y. subst y. unfold turn, vsub, dot. cbn [vx vy vz].
  pose proof (sin_le_abs ((t - t') / 2)) as S.
  assert (C : (cos t - cos t') * (cos t - cos t') + (sin t - sin t') * (sin t - sin t') =
    4 * (sin ((t - t') / 2))²).
  { pose proof (cos_minus t t') as Cm. pose proof (cos_2a_sin ((t - t') / 2)) as C2.
    replace (2 * ((t - t') / 2)) with (t - t') in C2 by field.
    pose proof (sin2_cos2 t) as U. pose proof (sin2_cos2 t') as U'. unfold Rsqr in *. lra. }
  apply Rle_trans with (((cos t - cos t') * (cos t - cos t') + (sin t - sin t') * (sin t - sin t')) * (x * x + z * z)).
  - right. ring.
  - rewrite C. replace (x * x + 0 * 0 + z * z) with (x * x + z * z) by ring.
    apply Rmult_le_compat_r; [nra|]. unfold Rsqr in *. lra.
Qed.

(** The arctangent does not stretch. *)
Lemma atan_near x y : Rabs (atan x - atan y) <= Rabs (x - y).
Proof.
  assert (Q : forall x y, x < y -> 0 <= atan y - atan x <= y - x).
  { intros u v Huv.
    destruct (MVT_cor2 atan (fun t => / (1 + t²)) u v Huv) as (c & Hc & _).
    { intros c _. rewrite Rsqr_pow2. apply derivable_pt_lim_atan. }
    rewrite Hc. assert (0 <= / (1 + c²) <= 1).
    { pose proof (Rle_0_sqr c). split; [left; apply Rinv_0_lt_compat; lra|].
      rewrite <- Rinv_1 at 2. apply Rinv_le_contravar; lra. }
    nra. }
  destruct (Rtotal_order x y) as [L|[->|L]].
  - specialize (Q x y L). rewrite (Rabs_minus_sym x y), (Rabs_minus_sym (atan x)), !Rabs_pos_eq; lra.
  - unfold Rminus. rewrite !Rplus_opp_r. lra.
  - specialize (Q y x L). rewrite !Rabs_pos_eq; lra.
Qed.

(** ** Corners *)
(** The joint, base and tip are in the plane XZ, and on the same side as in main.cpp. *)
Definition flat_body (b : gbody FltR) : Prop :=
  vy (j_init b) = 0 /\ vy (b_init b) = 0 /\ vy (t_init b) = 0 /\
  (vz (b_init b) - vz (j_init b)) * (vx (t_init b) - vx (j_init b)) -
  (vx (b_init b) - vx (j_init b)) * (vz (t_init b) - vz (j_init b)) < 0.

Definition shifted (t : R) (p : rvec) (dy : R) (v : rvec) : rvec :=
  vadd (vadd (turn t v) p) (mkVec 0 dy 0).

Notation ecorners := (example_corners (K := FltR) sin cos).

Lemma flat_corners b p t : flat_body b ->
  ecorners b (p, mkVec 0 t 0) =
    mkCorners (K := FltR)
      (shifted t p (- (width b / 2)) (j_init b)) (shifted t p (width b / 2) (j_init b))
      (shifted t p (- (width b / 2)) (b_init b)) (shifted t p (width b / 2) (b_init b))
      (shifted t p (- (width b / 2)) (t_init b)) (shifted t p (width b / 2) (t_init b)).
Proof.
  intros (Yj & Yb & Yt & Det). unfold example_corners. cbn [fst snd].
  rewrite !rotation_turn.
  set (D := (vz (b_init b) - vz (j_init b)) * (vx (t_init b) - vx (j_init b)) -
    (vx (b_init b) - vx (j_init b)) * (vz (t_init b) - vz (j_init b))) in *.
  assert (N : calc_normal (K := FltR) (vmap2 (sadd (f := FltR)) (turn t (j_init b)) p)
    (vmap2 (sadd (f := FltR)) (turn t (b_init b)) p)
    (vmap2 (sadd (f := FltR)) (turn t (t_init b)) p) = mkVec 0 (-1) 0).
  { unfold calc_normal, vmap2, turn. rred. cbn [vx vy vz]. rewrite Yj, Yb, Yt.
    pose proof (sin2_cos2 t) as U. unfold Rsqr in U.
    match goal with |- mkVec (?a / ?n) (?b / ?n) (?c / ?n) = _ =>
      assert (A : a = 0) by ring; assert (C : c = 0) by ring;
      assert (B : b = (sin t * sin t + cos t * cos t) * D) by (subst D; ring) end.
    rewrite A, B, C, U. replace (0 * 0 + 1 * D * (1 * D) + 0 * 0) with ((- D) * (- D)) by ring.
    rewrite sqrt_square by lra. apply vec_eq; cbn [vx vy vz]; field; lra. }
  rewrite N. unfold shifted, vmap2, vmap, vadd. rred. cbn [vx vy vz].
  f_equal; apply vec_eq; cbn [vx vy vz]; field.
Qed.

(** ** The whole trajectory *)
Lemma trajectory_ends x_i z_i x_min z_min o nn :
  (2 <= nn)%nat -> x_i <> x_min -> x_min = 0 \/ z_i <> z_min ->
  let traj := rtrajectory x_i z_i x_min z_min o nn in
  length traj = nn /\
  (exists a, nth_error traj 0 = Some (mkVec x_i 0 z_i, a)) /\
  (exists a, nth_error traj (nn - 1) = Some (mkVec (2 * x_min - x_i) 0 z_i, a)) /\
  forall p, In p traj -> exists u v, 0 <= u <= 1 /\ 0 <= v <= 1 /\
    fst p = mkVec (x_i + u * (2 * (x_min - x_i))) 0 (z_min + v * (z_i - z_min)).
Proof.
  intros Hn Hx Hz traj. assert (Len : length traj = nn) by apply trajectory_length.
  split; [exact Len|]. split; [|split].
  - unfold traj. rewrite trajectory_nth by (auto; lia). unfold point. rewrite along_first, height_first by exact Hx. eauto.
  - unfold traj. rewrite trajectory_nth by (auto; lia). unfold point.
    rewrite along_last, height_last by auto. eauto.
  - intros p Hp. apply In_nth_error in Hp as (k & Hk).
    assert (L : (k < nn)%nat) by (rewrite <- Len; apply nth_error_Some; congruence).
    unfold traj in Hk. rewrite trajectory_nth in Hk by auto. injection Hk as <-.
    destruct (along_between x_i x_min nn k Hn L) as (u & Hu & E).
    destruct (height_between x_i z_i x_min z_min u Hx Hu) as (v & Hv & F).
    exists u, v. split; [exact Hu|]. split; [exact Hv|]. unfold point. cbn [fst]. rewrite E, F. reflexivity.
Qed.
