(** The default run of the example program: test/example/main.cpp with its bucket. *)
From Coq Require Import Reals ZArith List Bool Lra Lia Psatz.
From Verif Require Import Outcome Num Base Flt FltR FltRFacts State Spec Spec2 ModelTypes ModelGeometry
  ModelUtils ModelStep ModelRaster ModelWhole ModelExample
  SpecGeo GeoProofs PoseProofs TypesProofs InsideProofs GeoClaims StepProofs WholeProofs WholeClaims
  ExampleProofs ExampleLoop.
Import ListNotations.
Open Scope R_scope.
Local Open Scope flt_scope.

Notation rplan := (plan (K := FltR) sin cos).
Notation rstepped := (stepped (K := FltR) sin cos).

(** ** Whatever the body and the trajectory *)
Lemma plan_shape {K : flt} sn cs (g : ggrid K) b traj fuel ps ts :
  plan sn cs g b traj fuel = Ok (ps, ts) ->
  exists ps' ts' p0 pn, ps = point_pose sn cs p0 :: ps' ++ [point_pose sn cs pn] /\
    ts = ts' ++ [total_time] /\
    nth_error traj 0 = Some p0 /\ nth_error traj (length traj - 1) = Some pn /\
    time_loop sn cs g traj (map (example_corners sn cs b) traj)
      (sdiv total_time (s_of_Z (Z.of_nat (length traj) - 1))) fuel dt_start dt_start = Ok (ps', ts').
Proof.
  unfold plan. intros E. apply bind_ok in E as (p0 & E0 & E). apply bind_ok in E as ([ps' ts'] & E1 & E).
  apply bind_ok in E as (pn & E2 & E).
  exists ps', ts', p0, pn.
  assert (Q : forall l r : list (vec (sf K) * quat (sf K)) * list (sf K), Ok l = Ok r -> l = r)
    by (intros l r H; congruence).
  apply Q in E. pose proof (f_equal fst E) as F1. pose proof (f_equal snd E) as F2. cbn [fst snd] in F1, F2.
  split; [symmetry; exact F1|]. split; [symmetry; exact F2|].
  unfold at_index in E0, E2. cbn [Z.ltb Z.compare Z.to_nat] in E0.
  destruct traj as [|x traj]; [discriminate|].
  split; [cbn [nth_error] in E0 |- *; congruence|].
  replace (Z.to_nat (Z.of_nat (length (x :: traj)) - 1)) with (length (x :: traj) - 1)%nat in E2
    by (cbn [length]; lia).
  destruct (_ <? 0)%Z; [discriminate|].
  split; [|exact E1]. destruct (nth_error _ (length (x :: traj) - 1)); congruence.
Qed.

Lemma time_loop_lengths {K : flt} sn cs (g : ggrid K) traj cn dt_int fuel : forall time dt ps ts,
  time_loop sn cs g traj cn dt_int fuel time dt = Ok (ps, ts) -> length ps = length ts.
Proof.
  induction fuel as [|fuel IH]; intros time dt ps ts E; [discriminate|].
  cbn [time_loop] in E. destruct (_ <! _).
  - apply bind_ok in E as (kk & _ & E). apply bind_ok in E as (p & _ & E).
    apply bind_ok in E as (dt' & _ & E). apply bind_ok in E as ([ps' ts'] & E4 & E).
    assert (Q : forall (a b : list (vec (sf K) * quat (sf K))) (c d : list (sf K)), Ok (a, c) = Ok (b, d) -> length a = length b /\ length c = length d)
      by (intros a b c d H; split; congruence).
    apply Q in E. cbn [length] in E. apply IH in E4. lia.
  - assert (Q : forall (a b : list (vec (sf K) * quat (sf K))) (c d : list (sf K)), Ok (a, c) = Ok (b, d) -> length a = length b /\ length c = length d)
      by (intros a b c d H; split; congruence).
    apply Q in E. cbn [length] in E. lia.
Qed.

(** There is one pose too many: the last one, on the last point, is never given to Step. *)
Lemma last_pose_left {K : flt} sn cs (g : ggrid K) b traj fuel ps ts :
  plan sn cs g b traj fuel = Ok (ps, ts) ->
  exists q pn, stepped sn cs g b traj fuel = Ok q /\ length q = length ts /\
    nth_error traj (length traj - 1) = Some pn /\ ps = q ++ [point_pose sn cs pn].
Proof.
  intros E. destruct (plan_shape _ _ _ _ _ _ _ _ E) as (ps' & ts' & p0 & pn & -> & -> & _ & N & L).
  apply time_loop_lengths in L.
  exists (point_pose sn cs p0 :: ps'), pn. unfold stepped. rewrite E. cbn [bind].
  rewrite app_length, Nat.add_1_r. cbn [length firstn]. split; [|split; [lia|split; [exact N|reflexivity]]].
  rewrite <- L. f_equal. f_equal. rewrite firstn_app, Nat.sub_diag, firstn_all. apply app_nil_r.
Qed.

(** ** The default bucket *)
Definition ex_nn : nat := Z.to_nat 10000.
Definition ex_g : rgrid := grid_of 4 4 4 (/ 20) (/ 100).
Definition ex_b : rbody := mission_b.
Definition ex_traj (o : R) : list (rvec * rvec) :=
  trajectory_of (K := FltR) atan (bucket_default (K := FltR)) o ex_nn.

Definition dxk : R := 42 / 10 / 9999.
Definition xk (k : nat) : R := -2 + INR k * dxk.
Definition ex_point (o : R) (k : nat) : rvec * rvec := point (-2) (3 / 2) (/ 10) (/ 4) o (xk k).

Lemma ex_nn_1 : INR (ex_nn - 1) = 9999.
Proof. rewrite INR_IZR_INZ. reflexivity. Qed.

Lemma ex_traj_eq o : ex_traj o = rtrajectory (-2) (3 / 2) (/ 10) (/ 4) o ex_nn.
Proof.
  unfold ex_traj, trajectory_of, bucket_default, rtrajectory. rred. f_equal; lra.
Qed.
Lemma ex_traj_length o : length (ex_traj o) = S (ex_nn - 1).
Proof. rewrite ex_traj_eq. unfold rtrajectory. rewrite trajectory_length. unfold ex_nn. lia. Qed.
Lemma ex_traj_nth o k : (k <= ex_nn - 1)%nat -> nth_error (ex_traj o) k = Some (ex_point o k).
Proof.
  intros Hk. rewrite ex_traj_eq, trajectory_nth; [|unfold ex_nn; lia|unfold ex_nn in *; lia|lra|right; lra].
  unfold ex_point. do 2 f_equal. unfold along, xk, dxk. rewrite ex_nn_1. field.
Qed.

Lemma ex_half : g_half_x ex_g = 80%Z /\ g_half_y ex_g = 80%Z /\ g_half_z ex_g = 400%Z.
Proof.
  cbn. assert (E : zround (4 / / 20) = 80%Z).
  { replace (4 / / 20) with (IZR 80) by field. apply zround_IZR. }
  assert (E' : zround (4 / / 100) = 400%Z).
  { replace (4 / / 100) with (IZR 400) by field. apply zround_IZR. }
  rewrite E, E'. auto.
Qed.
Lemma ex_cells : g_cell_xy ex_g = / 20 /\ g_cell_z ex_g = / 100.
Proof. split; reflexivity. Qed.
Lemma ex_grid_built : rnew_grid 4 4 4 (/ 20) (/ 100) = Built ex_g.
Proof.
  destruct ex_half as (X & Y & Z). cbn in X, Y, Z. apply new_grid_ok.
  - unfold sizes_ok. lra.
  - unfold fits. rewrite X. lia.
  - unfold fits. rewrite X. lia.
  - unfold fits. rewrite Z. lia.
Qed.

Lemma xk_range k : (k <= ex_nn - 1)%nat -> -2 <= xk k <= 22 / 10.
Proof.
  intros Hk. apply le_INR in Hk. rewrite ex_nn_1 in Hk. pose proof (pos_INR k). unfold xk, dxk. lra.
Qed.

Lemma ex_height x : -2 <= x <= 22 / 10 -> / 4 <= height (-2) (3 / 2) (/ 10) (/ 4) x <= 3 / 2.
Proof.
  intros Hx. unfold height, Rsqr.
  replace ((x - / 10) / (-2 - / 10) * ((x - / 10) / (-2 - / 10))) with ((x - / 10) * (x - / 10) * (100 / 441))
    by field.
  assert (0 <= (x - / 10) * (x - / 10)) by apply Rle_0_sqr.
  assert (0 <= (x + 2) * (22 / 10 - x)) by (apply Rmult_le_pos; lra). lra.
Qed.

(** ** Every pose given to Step keeps the body inside the grid *)
Definition ex_r : R := 896 / 1000.
Definition ex_rho : R := 8962 / 10000.

Lemma ex_inside (p : rvec * rquat) rho : rho <= ex_rho -> snd p <> qzero -> vy (fst p) = 0 ->
  -2 <= vx (fst p) <= 22 / 10 -> -1 <= vz (fst p) <= 11 / 4 -> pose_inside ex_g rho p.
Proof.
  destruct p as [pos ori]. cbn [fst snd]. intros Hr Ho Y X Z. unfold ex_rho in Hr.
  destruct ex_half as (HX & HY & HZ). destruct ex_cells as [Cx Cz].
  unfold pose_inside. rewrite HX, HY, HZ, Cx, Cz, Y, Rabs_R0.
  split; [exact Ho|].
  assert (Rabs (vx pos) <= 22 / 10) by (apply Rabs_le; lra).
  assert (Rabs (vz pos) <= 11 / 4) by (apply Rabs_le; lra).
  repeat split; lra.
Qed.

Lemma ex_stepped_inside o fuel q rho : rho <= ex_rho ->
  rstepped ex_g ex_b (ex_traj o) fuel = Ok q -> Forall (pose_inside ex_g rho) q.
Proof.
  intros Hr E. unfold stepped in E. apply bind_ok in E as ([ps ts] & E & E').
  destruct (plan_shape _ _ _ _ _ _ _ _ E) as (ps' & ts' & p0 & pn' & -> & -> & N0 & _ & L).
  set (dt := 8 / 9999). assert (Hdt : 0 < dt) by (unfold dt; lra).
  rewrite ex_traj_length in L.
  replace (sdiv (f := FltR) (total_time (K := FltR)) (s_of_Z (Z.of_nat (S (ex_nn - 1)) - 1))) with dt in L.
  2: { unfold total_time, dt. rred. replace (Z.of_nat (S (ex_nn - 1)) - 1)%Z with 9999%Z by (unfold ex_nn; lia).
       reflexivity. }
  pose proof dt_start_eq as Ds.
  destruct ex_cells as [Cx Cz].
  destruct (time_loop_poses ex_g (ex_traj o) (map (ecorners ex_b) (ex_traj o)) dt
    ltac:(rewrite Cx; lra) ltac:(rewrite Cz; lra) fuel Hdt (dt_start (K := FltR)) (dt_start (K := FltR))
    ps' ts' ltac:(rewrite Ds; lra) ltac:(rewrite Ds; lra) L) as [L1 L2].
  assert (F : Forall (pose_inside ex_g rho) (point_pose (K := FltR) sin cos p0 :: ps')).
  { constructor.
    - rewrite ex_traj_nth in N0 by lia. injection N0 as <-.
      apply ex_inside; [exact Hr| | | |]; unfold point_pose, ex_point, point; cbn [fst snd vx vy vz].
      + apply turn_quat.
      + reflexivity.
      + apply xk_range. lia.
      + pose proof (ex_height (xk 0) (xk_range 0 ltac:(lia))). lra.
    - eapply Forall_impl; [|exact L2]. cbv beta. intros p (t & T & u & v & U & V & ->). rewrite Ds in T.
      pose proof (zceil_spec (t / dt)) as Zc. set (k := zceil (t / dt)) in *.
      assert (K0 : (0 <= k)%Z).
      { unfold at_index in U. destruct (k <? 0)%Z eqn:Q; [discriminate|]. apply Z.ltb_ge in Q. exact Q. }
      assert (K1 : (Z.to_nat k + 1 <= ex_nn - 1)%nat).
      { unfold at_index in V. destruct (k + 1 <? 0)%Z; [discriminate|].
        destruct (nth_error (ex_traj o) (Z.to_nat (k + 1))) eqn:Q; [|discriminate].
        assert (Z.to_nat (k + 1) < length (ex_traj o))%nat by (apply nth_error_Some; congruence).
        rewrite ex_traj_length in H. lia. }
      rewrite (at_index_Ok (ex_traj o) (ex_point o) (ex_nn - 1) (ex_traj_length o) (ex_traj_nth o)) in U by lia.
      rewrite (at_index_Ok (ex_traj o) (ex_point o) (ex_nn - 1) (ex_traj_length o) (ex_traj_nth o)) in V by lia.
      injection U as <-. injection V as <-.
      set (b := (t - IZR k * dt) / dt).
      assert (Eb : b = t / dt - IZR k) by (subst b; field; lra).
      assert (B : -1 < b <= 0) by lra.
      replace (Z.to_nat (k + 1)) with (S (Z.to_nat k)) by lia.
      set (n := Z.to_nat k) in *.
      assert (In : INR n = IZR k) by (subst n; rewrite INR_IZR_INZ, Z2Nat.id by lia; reflexivity).
      pose proof (ex_height (xk n) (xk_range n ltac:(lia))) as H1.
      pose proof (ex_height (xk (S n)) (xk_range (S n) ltac:(lia))) as H2.
      apply ex_inside; [exact Hr| | | |]; cbn [fst snd].
      + match goal with |- angle_to_quat (K := FltR) _ _ ?v <> _ => replace v with (mkVec 0 (vy v) 0) end;
          [apply turn_quat|].
        unfold blend, vmap2, ex_point, point. rred. cbn [fst snd vx vy vz]. apply vec_eq; cbn [vx vy vz]; ring.
      + unfold blend, vmap2, ex_point, point. rred. cbn [fst snd vx vy vz]. ring.
      + rewrite vx_blend. unfold ex_point, point. cbn [fst vx].
        replace (xk n * (1 - b) + xk (S n) * b) with (-2 + (IZR k + b) * dxk)
          by (unfold xk; rewrite S_INR, In; ring).
        rewrite Eb. replace (IZR k + (t / dt - IZR k)) with (t / dt) by ring.
        unfold dt, dxk. lra.
      + unfold blend, vmap2, ex_point, point. rred. cbn [fst snd vx vy vz].
        set (h1 := height _ _ _ _ (xk n)) in *. set (h2 := height _ _ _ _ (xk (S n))) in *.
        assert (0 <= - b * (h1 - / 4) <= 5 / 4) by nra.
        assert (0 <= - b * (h2 - / 4) <= 5 / 4) by nra. lra. }
  injection E' as <-.
  rewrite app_length, Nat.add_1_r. cbn [length firstn].
  match goal with |- context [firstn ?k (ps' ++ _)] => replace k with (length ps') by exact L1 end.
  rewrite firstn_app, Nat.sub_diag, firstn_all. cbn [firstn]. rewrite app_nil_r. exact F.
Qed.

(** ** The times are found: no access outside of the arrays, and the loop ends *)
Lemma ex_flat : flat_body ex_b.
Proof. unfold flat_body, ex_b, mission_b. cbn [j_init b_init t_init vx vy vz]. repeat split; lra. Qed.

Definition ex_corner (o : R) (k : nat) : corners FltR := ecorners ex_b (ex_point o k).

Lemma ex_corner_eq o k : ex_corner o k =
  let t := - o + atan (slope (-2) (3 / 2) (/ 10) (/ 4) (xk k)) in
  let p := mkVec (xk k) 0 (height (-2) (3 / 2) (/ 10) (/ 4) (xk k)) in
  mkCorners (K := FltR)
    (shifted t p (- (width ex_b / 2)) (j_init ex_b)) (shifted t p (width ex_b / 2) (j_init ex_b))
    (shifted t p (- (width ex_b / 2)) (b_init ex_b)) (shifted t p (width ex_b / 2) (b_init ex_b))
    (shifted t p (- (width ex_b / 2)) (t_init ex_b)) (shifted t p (width ex_b / 2) (t_init ex_b)).
Proof. unfold ex_corner, ex_point, point. apply flat_corners, ex_flat. Qed.

Lemma shifted_near t t' p p' dy v : vy v = 0 ->
  vdist (shifted t p dy v) (shifted t' p' dy v) <= Rabs (t - t') * vlen v + vdist p p'.
Proof.
  intros Y. pose proof (turn_near t t' v Y) as T. unfold vdist in *.
  replace (vsub (shifted t p dy v) (shifted t' p' dy v)) with (vadd (vsub (turn t v) (turn t' v)) (vsub p p'))
    by (unfold shifted, vsub, vadd; cbn [vx vy vz]; apply vec_eq; cbn [vx vy vz]; ring).
  eapply Rle_trans; [apply vlen_triangle|]. lra.
Qed.

Lemma vlen_le (v : rvec) d : 0 <= d -> dot v v <= d * d -> vlen v <= d.
Proof.
  intros D H. unfold vlen. rewrite <- (sqrt_square d D). apply sqrt_le_1_alt. exact H.
Qed.

Lemma ex_near o v dy k : (k < ex_nn - 1)%nat -> vy v = 0 -> vlen v <= 861 / 1000 ->
  let t k := - o + atan (slope (-2) (3 / 2) (/ 10) (/ 4) (xk k)) in
  let p k := mkVec (xk k) 0 (height (-2) (3 / 2) (/ 10) (/ 4) (xk k)) in
  vdist (shifted (t (S k)) (p (S k)) dy v) (shifted (t k) (p k) dy v) <= 205 / 100 * dxk.
Proof.
  intros Hk Y Lv t p. eapply Rle_trans; [apply shifted_near, Y|].
  pose proof (xk_range k ltac:(lia)) as X. pose proof (xk_range (S k) ltac:(lia)) as X'.
  assert (Ex : xk (S k) = xk k + dxk) by (unfold xk; rewrite S_INR; ring).
  assert (D : 0 < dxk) by (unfold dxk; lra).
  assert (T : Rabs (t (S k) - t k) <= 567 / 1000 * dxk).
  { unfold t. replace (- o + atan (slope (-2) (3 / 2) (/ 10) (/ 4) (xk (S k))) -
      (- o + atan (slope (-2) (3 / 2) (/ 10) (/ 4) (xk k)))) with
      (atan (slope (-2) (3 / 2) (/ 10) (/ 4) (xk (S k))) - atan (slope (-2) (3 / 2) (/ 10) (/ 4) (xk k))) by ring.
    eapply Rle_trans; [apply atan_near|]. rewrite Ex.
    replace (slope (-2) (3 / 2) (/ 10) (/ 4) (xk k + dxk) - slope (-2) (3 / 2) (/ 10) (/ 4) (xk k))
      with (250 / 441 * dxk) by (unfold slope, Rsqr; field).
    rewrite Rabs_pos_eq; lra. }
  assert (Q : vdist (p (S k)) (p k) <= 1556 / 1000 * dxk).
  { unfold vdist, p. apply vlen_le; [lra|]. unfold dot, vsub. cbn [vx vy vz].
    replace (height (-2) (3 / 2) (/ 10) (/ 4) (xk (S k)) - height (-2) (3 / 2) (/ 10) (/ 4) (xk k))
      with (125 / 441 * (xk k + xk (S k) - 2 / 10) * dxk)
      by (rewrite Ex; unfold height, Rsqr; field).
    set (y := xk k + xk (S k) - 2 / 10). assert (Hy : - (42 / 10) <= y <= 42 / 10) by (unfold y; lra).
    assert (y * y <= 42 / 10 * (42 / 10)) by (assert (0 <= (42 / 10 - y) * (42 / 10 + y)) by (apply Rmult_le_pos; lra); lra).
    assert (D2 : 0 < dxk * dxk) by (apply Rmult_lt_0_compat; lra).
    replace ((xk (S k) - xk k) * (xk (S k) - xk k)) with (dxk * dxk) by (rewrite Ex; ring).
    replace (dxk * dxk + (0 - 0) * (0 - 0) + 125 / 441 * y * dxk * (125 / 441 * y * dxk)) with
      ((1 + 15625 / 194481 * (y * y)) * (dxk * dxk)) by field.
    replace (1556 / 1000 * dxk * (1556 / 1000 * dxk)) with (2421136 / 1000000 * (dxk * dxk)) by field.
    apply Rmult_le_compat_r; lra. }
  assert (0 <= vlen v) by apply vlen_nonneg. pose proof (Rabs_pos (t (S k) - t k)).
  assert (Rabs (t (S k) - t k) * vlen v <= 567 / 1000 * dxk * (861 / 1000))
    by (apply Rmult_le_compat; assumption).
  lra.
Qed.

Lemma ex_corner_near o f k :
  In f [@j_l FltR; @j_r FltR; @b_l FltR; @b_r FltR; @t_l FltR; @t_r FltR] -> (k < ex_nn - 1)%nat ->
  vdist (f (ex_corner o (S k))) (f (ex_corner o k)) <= 205 / 100 * dxk.
Proof.
  intros Hin Hk. rewrite !ex_corner_eq.
  assert (V : forall v, v = j_init ex_b \/ v = b_init ex_b \/ v = t_init ex_b ->
    vy v = 0 /\ vlen v <= 861 / 1000).
  { intros v [->|[->| ->]]; cbn [ex_b mission_b j_init b_init t_init vy]; (split; [reflexivity|]);
      apply vlen_le; try lra; unfold dot; cbn [vx vy vz]; lra. }
  cbn [In] in Hin.
  destruct Hin as [<-|[<-|[<-|[<-|[<-|[<-|[]]]]]]]; cbn [j_l j_r b_l b_r t_l t_r];
    apply ex_near; auto; apply V; auto.
Qed.
Lemma ex_corner_forward o k : (k <= ex_nn - 1)%nat -> vx (j_l (ex_corner o k)) = -2 + INR k * dxk.
Proof.
  intros _. rewrite ex_corner_eq. cbn [j_l]. unfold shifted, vadd, turn.
  cbn [ex_b mission_b j_init vx vy vz]. unfold xk.
  match goal with |- ?l = ?r => change (@eq R l r) end. ring.
Qed.

Lemma ex_loop_total o fuel : (5001 <= Z.of_nat fuel)%Z ->
  exists ps ts, time_loop (K := FltR) sin cos ex_g (ex_traj o) (map (ecorners ex_b) (ex_traj o)) (8 / 9999) fuel
    (/ 10) (/ 10) = Ok (ps, ts).
Proof.
  intros Hf. destruct fuel as [|fuel]; [lia|].
  destruct ex_cells as [Cx Cz].
  assert (Em : (smin (K := FltR) (g_cell_xy ex_g) (g_cell_z ex_g) : R) = / 100).
  { rewrite Cx, Cz. unfold smin. rred. destruct (Rltb _ _) eqn:Q; rbool; lra. }
  apply time_loop_total with (n := (ex_nn - 1)%nat) (tr := ex_point o) (c := ex_corner o)
    (L := 205 / 100 * dxk) (x0 := -2) (delta := dxk).
  - rewrite Cx. lra.
  - rewrite Cz. lra.
  - unfold ex_nn. lia.
  - rewrite ex_nn_1. lra.
  - rewrite ex_nn_1. reflexivity.
  - apply ex_traj_length.
  - rewrite map_length. apply ex_traj_length.
  - apply ex_traj_nth.
  - intros k Hk. apply map_nth_error, ex_traj_nth, Hk.
  - intros f Hin k Hk. apply ex_corner_near; assumption.
  - apply ex_corner_forward.
  - unfold dxk. lra.
  - rewrite Em. unfold dxk. lra.
  - rewrite Em, ex_nn_1. unfold dxk. lra.
  - lra.
  - lra.
  - assert (5000 <= INR fuel) by (rewrite INR_IZR_INZ; apply IZR_le; lia). lra.
Qed.

Lemma ex_plan_total o fuel : (5001 <= Z.of_nat fuel)%Z ->
  exists ps ts, rplan ex_g ex_b (ex_traj o) fuel = Ok (ps, ts).
Proof.
  intros Hf. destruct (ex_loop_total o fuel Hf) as (ps & ts & E).
  unfold plan. rewrite ex_traj_length.
  replace (Z.of_nat (S (ex_nn - 1)) - 1)%Z with 9999%Z by (unfold ex_nn; lia).
  rewrite !(at_index_Ok (ex_traj o) (ex_point o) (ex_nn - 1) (ex_traj_length o) (ex_traj_nth o))
    by (unfold ex_nn; lia).
  cbn [bind].
  match goal with |- context [time_loop _ _ _ _ _ ?d _ ?x ?y] =>
    change d with (8 / 9999); replace x with (/ 10) by (symmetry; apply dt_start_eq) end.
  match type of E with ?x = _ => match goal with |- context [bind ?y _] => change y with x end end.
  rewrite E. cbn [bind]. eauto.
Qed.

(** ** The theorems about whole runs apply to it *)
Definition ex_t : Z := 100000.
Definition ex_cz : Z := 1000.
Definition ex_prm : gparam FltR := @mkGParam FltR (17 / 20) 3 4.
Definition ex_P : params (ZNum (wunits ex_t)) :=
  mkParams (ZNum (wunits ex_t)) (1000 * zround (/ 20 * tan (17 / 20) / / 100))%Z 3 4%Z 1%Z.

Lemma ex_setup : setup ex_t ex_g ex_cz ex_prm ex_b ex_P.
Proof.
  destruct ex_half as (X & Y & Z). destruct ex_cells as [Cx Cz]. pose proof PI2_1 as P1.
  assert (B : param_ok (17 / 20) 3 4).
  { unfold param_ok. repeat split; lra || lia. }
  unfold setup. rewrite X, Y, Z, Cz.
  split; [reflexivity|]. split.
  { exists 4, 4, 4, (/ 20), (/ 100), 400%Z. split; [exact ex_grid_built|lra]. }
  split; [exists (17 / 20), 3%Z, 4%Z; apply new_param_ok, B|].
  split; [cbn [ex_prm repose_angle]; lra|].
  destruct demo_setup as (_ & _ & _ & _ & Bd & Tr & _).
  split; [exact Bd|]. split; [exact Tr|].
  split; [unfold metres, ex_t, ex_cz; lra|].
  split.
  { unfold metres, ex_t, ex_P; cbn [p_dh_max]. unfold dh_max. rewrite Cx, Cz.
    cbn [ex_prm repose_angle]. rred. rewrite mult_IZR.
    generalize (IZR (zround (/ 20 * tan (17 / 20) / / 100))). intros q. lra. }
  split; [reflexivity|]. split; [reflexivity|].
  cbn [ex_P p_tol ex_prm cell_buffer]. unfold ex_cz, metres, ex_t.
  repeat split; lia || lra.
Qed.

Lemma ex_radius : radius_le ex_b ex_r.
Proof.
  change (radius_le demo_b ex_r). intros p Hp. unfold ex_r. apply vlen_le; [lra|].
  unfold own_corners in Hp.
  rewrite demo_normal in Hp.
  cbn [corner_list j_r j_l b_r b_l t_r t_l] in Hp.
  destruct Hp as [<-|[<-|[<-|[<-|[<-|[<-|[]]]]]]]; unfold dot, vadd, vsub, vscale; cbn; lra.
Qed.

Lemma ex_mission o fuel lines : (5001 <= Z.of_nat fuel)%Z -> (grid_fuel ex_g <= Z.of_nat lines)%Z ->
  exists ps, rstepped ex_g ex_b (ex_traj o) fuel = Ok ps /\
    mission Bucket ex_t ex_g ex_cz ex_prm ex_b ex_P ex_r lines ps.
Proof.
  intros Hf Hl. destruct (ex_plan_total o fuel Hf) as (ps & ts & E).
  destruct (last_pose_left _ _ _ _ _ _ _ _ E) as (q & pn & Q & _).
  exists q. split; [exact Q|]. split; [exact ex_setup|]. split; [exact ex_radius|]. split; [exact Hl|].
  apply ex_stepped_inside with (o := o) (fuel := fuel); [|exact Q].
  unfold reach, ex_r, ex_rho, metres, ex_t. cbn [ex_P p_tol]. lra.
Qed.

Lemma ex_built :
  rnew_grid 4 4 4 (/ 20) (/ 100) = Built ex_g /\
  rnew_param (17 / 20) 3 4 = Built ex_prm /\
  rnew_body [0; 0; 0] [0; 0; 0] [0; 0; - / 2] [7 / 10; 0; - / 2] (/ 2) = Built ex_b /\
  metres ex_t (p_tol ex_P) = / 100000.
Proof.
  split; [exact ex_grid_built|]. split; [|split].
  - apply new_param_ok. unfold param_ok. pose proof PI2_1. repeat split; lra || lia.
  - change (rnew_body (list3 v0) (list3 v0) (list3 (mkVec 0 0 (- / 2))) (list3 (mkVec (7 / 10) 0 (- / 2))) (/ 2) = Built ex_b).
    rewrite new_body_ok.
    + f_equal. unfold ex_b, mission_b. f_equal; apply vec_eq; cbn; lra.
    + unfold body_args_ok, list3, v0; cbn [vx vy vz length].
      repeat split; try lra; intros Q; injection Q; lra.
  - unfold metres, ex_t. cbn [ex_P p_tol]. lra.
Qed.

Lemma ex_run o lines : (grid_fuel ex_g <= Z.of_nat lines)%Z ->
  exists ps, rstepped ex_g ex_b (ex_traj o) (Z.to_nat 5001) = Ok ps /\
  forall to_ticks noise rg l,
  let wg := wgrid ex_t ex_g ex_cz in
  let start := init (A := ZNum (wunits ex_t)) wg noise (new_sim wg rg l) in
  exists w' n,
    (forall fuel, (n <= fuel)%nat -> wrun Bucket ex_t to_ticks ex_g ex_cz ex_b ex_P lines fuel ps start = Ok w') /\
    check_soil (A := ZNum (wunits ex_t)) (p_tol ex_P) (fst w') = Ok (fst w', true) /\
    exists new, wlog (fst w') = wlog start ++ new /\
      (total_soil (fst w') <= total_soil start)%Z /\
      (total_soil (fst w') = total_soil start <-> ~ In WRemoved new).
Proof.
  intros Hl. destruct (ex_mission o (Z.to_nat 5001) lines ltac:(lia) Hl) as (ps & E & M).
  exists ps. split; [exact E|]. intros to_ticks noise rg l wg start.
  destruct (mission_total _ _ to_ticks _ _ _ _ _ _ _ _ M noise rg l) as (w' & n & Q).
  exists w', n. split; [exact Q|]. specialize (Q n (Nat.le_refl n)). split.
  - exact (mission_check _ _ to_ticks _ _ _ _ _ _ _ _ M noise rg l n w' Q).
  - exact (mission_balanced _ _ to_ticks _ _ _ _ _ _ _ _ M noise rg l n w' Q).
Qed.
