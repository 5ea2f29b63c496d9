(** The times of the default run of the example program, and the poses at these times. *)
From Coq Require Import Reals ZArith List Bool Lra Lia Psatz.
From Verif Require Import Outcome Num Base Flt FltR FltRFacts State ModelTypes ModelGeometry
  ModelExample SpecGeo GeoProofs PoseProofs TypesProofs InsideProofs GeoClaims
  ExampleProofs ExampleLoop ExampleRun.
Import ListNotations.
Open Scope R_scope.

(** Two consecutive elements are between [lo] and [hi] apart. *)
Definition spaced (lo hi : R) (l : list R) : Prop :=
  forall i t t', nth_error l i = Some t -> nth_error l (S i) = Some t' -> lo <= t' - t <= hi.

Definition six : list (corners FltR -> rvec) :=
  [@j_l FltR; @j_r FltR; @b_l FltR; @b_r FltR; @t_l FltR; @t_r FltR].

(** ** The rule of the time step *)
Lemma at_index_inv {T} (l : list T) z v : at_index l z = Ok v ->
  (0 <= z)%Z /\ nth_error l (Z.to_nat z) = Some v.
Proof.
  unfold at_index. destruct (z <? 0)%Z eqn:Q; [discriminate|]. apply Z.ltb_ge in Q.
  destruct (nth_error l (Z.to_nat z)); intros E; [|discriminate]. split; [exact Q|congruence].
Qed.
Lemma time_index_inv dt t k : time_index (K := FltR) dt t = Ok k -> k = zceil (t / dt).
Proof.
  unfold time_index. rred. change (s_int (K := FltR) (IZR (zceil (t / dt))) = Ok k -> k = zceil (t / dt)).
  rewrite s_int_IZR. destruct (int_ok _); congruence.
Qed.

Lemma next_dt_rule (g : rgrid) cs dt_int time dt a b dt' : 0 < dt ->
  next_dt (K := FltR) g cs dt_int time dt a b = Ok dt' ->
  exists kp km u v u' v' V,
    IZR kp - 1 < (time + dt / 2) / dt_int <= IZR kp /\ IZR km - 1 < (time - dt / 2) / dt_int <= IZR km /\
    (0 <= kp)%Z /\ (0 <= km)%Z /\
    nth_error cs (Z.to_nat kp) = Some u /\ nth_error cs (Z.to_nat kp + 1) = Some v /\
    nth_error cs (Z.to_nat km) = Some u' /\ nth_error cs (Z.to_nat km + 1) = Some v' /\
    (forall f, In f six -> vdist (vadd (vscale a (f u)) (vscale b (f v)))
                                 (vadd (vscale a (f u')) (vscale b (f v'))) / dt <= V) /\
    (exists f, In f six /\ vdist (vadd (vscale a (f u)) (vscale b (f v)))
                                 (vadd (vscale a (f u')) (vscale b (f v'))) / dt = V) /\
    (V = 0 -> dt' = / 5) /\ (V <> 0 -> dt' = Rmin (g_cell_xy g) (g_cell_z g) / (5 / 4 * V)).
Proof.
  intros Hd E. unfold next_dt in E. apply bind_ok in E as (kp & K1 & E). apply bind_ok in E as (plus & B1 & E).
  apply bind_ok in E as (km & K2 & E). apply bind_ok in E as (minus & B2 & E).
  unfold blend_corners in B1, B2.
  apply bind_ok in B1 as (u & U & B1). apply bind_ok in B1 as (v & V1 & B1).
  apply bind_ok in B2 as (u' & U' & B2). apply bind_ok in B2 as (v' & V2 & B2).
  apply at_index_inv in U as [U0 U]. apply at_index_inv in V1 as [_ V1].
  apply at_index_inv in U' as [U0' U']. apply at_index_inv in V2 as [_ V2].
  replace (Z.to_nat (kp + 1)) with (Z.to_nat kp + 1)%nat in V1 by lia.
  replace (Z.to_nat (km + 1)) with (Z.to_nat km + 1)%nat in V2 by lia.
  assert (P1 : kp = zceil ((time + dt / 2) / dt_int)).
  { apply time_index_inv in K1. rewrite K1. f_equal. f_equal.
    match goal with |- ?l = ?r => change (@eq R (time + 1 / 2 * dt) r) end. lra. }
  assert (P2 : km = zceil ((time - dt / 2) / dt_int)).
  { apply time_index_inv in K2. rewrite K2. f_equal. f_equal.
    match goal with |- ?l = ?r => change (@eq R (time - 1 / 2 * dt) r) end. lra. }
  set (w f := vdist (vadd (vscale a (f u)) (vscale b (f v))) (vadd (vscale a (f u')) (vscale b (f v'))) / dt).
  assert (Ev : map (fun p => speed (K := FltR) dt (fst p) (snd p)) (combine plus minus) = map w six).
  { assert (W : forall f : corners FltR -> rvec, speed (K := FltR) dt (rblend a b (f u) (f v)) (rblend a b (f u') (f v')) = w f).
    { intros f. rewrite speed_dist. unfold w. f_equal. f_equal; unfold blend, vmap2, vadd, vscale; rred;
        cbn [vx vy vz]; apply vec_eq; cbn [vx vy vz]; ring. }
    injection B1 as <-. injection B2 as <-. unfold six. cbn [map combine fst snd]. rewrite !W. reflexivity. }
  set (V := smax_list (K := FltR) (w (@j_l FltR)) (map w (tl six))).
  exists kp, km, u, v, u', v', V.
  split; [rewrite P1; apply zceil_spec|]. split; [rewrite P2; apply zceil_spec|].
  do 6 (split; [assumption|]).
  destruct (smax_list_ge (map w (tl six)) (w (@j_l FltR))) as [G1 G2]. fold V in G1, G2.
  split.
  { intros f [<-|Hf]; [exact G1|]. apply (G2 (w f)). apply in_map. exact Hf. }
  split.
  { destruct (smax_list_in (map w (tl six)) (w (@j_l FltR))) as [Q|Q].
    - exists (@j_l FltR). split; [left; reflexivity|symmetry; exact Q].
    - apply in_map_iff in Q as (f & Q & Hf). exists f. split; [right; exact Hf|exact Q]. }
  assert (Top : dt' = if Reqb (5 / 4 * V) 0 then (dt_max (K := FltR) : R)
    else (smin (K := FltR) (g_cell_xy g) (g_cell_z g) : R) / (5 / 4 * V)).
  { rewrite Ev in E. injection E as <-. reflexivity. }
  assert (Em : (smin (K := FltR) (g_cell_xy g) (g_cell_z g) : R) = Rmin (g_cell_xy g) (g_cell_z g)).
  { unfold smin. rred. unfold Rmin. destruct (Rltb _ _) eqn:Q; rbool; destruct (Rle_dec _ _); lra. }
  rewrite Top, Em. pose proof dt_max_eq as Dm. split; intros HV.
  - destruct (Reqb _ _) eqn:Q; rbool; [exact Dm|lra].
  - destruct (Reqb _ _) eqn:Q; rbool; [lra|reflexivity].
Qed.

(** ** Poses and times of the loop *)
Section Times.
  Variable g : rgrid.
  Variable traj : list (rvec * rvec).
  Variable cs : list (corners FltR).
  Variable dt_int : R.
  Hypothesis Hi : 0 < dt_int.
  (** What is known of the steps. *)
  Variables lo hi : R.
  Variable Inv : R -> R -> Prop.
  Hypothesis Ipos : forall time dt, Inv time dt -> 0 < dt.
  Hypothesis Hhi : hi <= / 5.
  Hypothesis Hlo : 0 < lo.
  Hypothesis Next : forall time dt a b dt', Inv time dt -> time + dt < 8 ->
    a = (IZR (zceil (time / dt_int) + 1) * dt_int - time) / dt_int ->
    b = (time - IZR (zceil (time / dt_int)) * dt_int) / dt_int ->
    next_dt (K := FltR) g cs dt_int time dt a b = Ok dt' ->
    lo <= dt' <= hi /\ Inv (time + dt') dt'.

  Lemma loop_times fuel : forall time dt ps ts, Inv time dt ->
    time_loop (K := FltR) sin cos g traj cs dt_int fuel time dt = Ok (ps, ts) ->
    Forall2 (pose_of traj dt_int) ts ps /\
    spaced lo hi ts /\
    Forall (fun t => time <= t < 8) ts /\
    match ts with
    | [] => 8 <= time + dt
    | t :: _ => t = time /\ exists z, last ts 0 = z /\ 8 - 2 * hi <= z
    end.
  Proof.
    induction fuel as [|fuel IH]; intros time dt ps ts I E; [discriminate|].
    cbn [time_loop] in E. revert E. unfold total_time. rred.
    destruct (Rltb (time + dt) 8) eqn:Q; rbool; intros E.
    2: { injection E as <- <-. split; [constructor|]. split; [|auto].
         intros i t t' H. destruct i; discriminate. }
    apply bind_ok in E as (kk & E1 & E). apply bind_ok in E as (p & E2 & E).
    apply bind_ok in E as (dt' & E3 & E). apply bind_ok in E as ([ps' ts'] & E4 & E).
    injection E as <- <-. apply time_index_inv in E1. subst kk.
    destruct (Next _ _ _ _ _ I Q eq_refl eq_refl E3) as [B I'].
    set (st := if Rltb (dt_max (K := FltR)) dt' then dt_max (K := FltR) else dt').
    assert (Hst : (st : R) = dt').
    { unfold st. destruct (Rltb _ _) eqn:Q'; rbool; [|reflexivity]. pose proof dt_max_eq. lra. }
    assert (E5 : time_loop (K := FltR) sin cos g traj cs dt_int fuel (time + dt') dt' = Ok (ps', ts'))
      by (rewrite <- Hst at 1; exact E4).
    destruct (IH _ _ _ _ I' E5) as (I1 & I2 & I3 & I4).
    assert (Hp : pose_of traj dt_int time p).
    { unfold pose_at in E2.
      apply bind_ok in E2 as (u & U & E2). apply bind_ok in E2 as (v & V & E2).
      injection E2 as <-. exists u, v. split; [exact U|]. split; [exact V|].
      cbv zeta. set (k := zceil (time / dt_int)). set (b := (time - IZR k * dt_int) / dt_int).
      replace ((IZR (k + 1) * dt_int - time) / dt_int) with (1 - b)
        by (subst b; rewrite plus_IZR; field; lra). reflexivity. }
    pose proof (Ipos _ _ I) as T8.
    split; [constructor; assumption|]. split; [|split].
    - intros i t t' H H'. destruct i as [|i]; [|exact (I2 i t t' H H')].
      cbn [nth_error] in H, H'. injection H as <-. destruct ts' as [|t0 ts']; [discriminate|].
      injection H' as <-. destruct I4 as [I4 _]. rewrite I4. lra.
    - constructor; [lra|]. eapply Forall_impl; [|exact I3]. cbv beta. intros; lra.
    - split; [reflexivity|]. eexists. split; [reflexivity|].
      destruct ts' as [|t0 ts']; [cbn [last]; lra|]. destruct I4 as (_ & z & Z1 & Z2).
      cbn [last] in Z1 |- *. rewrite Z1. exact Z2.
  Qed.
End Times.

(** ** The default run *)
Lemma ex_next o time dt a b :
  / 10 <= time -> 2 * (8 / 9999) <= dt <= / 5 -> time + dt < 8 ->
  1 <= a -> - 1 <= b <= 0 -> a + b = 1 ->
  exists dt', next_dt (K := FltR) ex_g (map (ecorners ex_b) (ex_traj o)) (8 / 9999) time dt a b = Ok dt' /\
    2 * (8 / 9999) <= dt' <= / 5 /\ dt' * (42 / 10) <= 64 / 5 * / 100.
Proof.
  intros H1 H2 H3 H4 H5 H6. destruct ex_cells as [Cx Cz].
  assert (Em : (smin (K := FltR) (g_cell_xy ex_g) (g_cell_z ex_g) : R) = / 100).
  { rewrite Cx, Cz. unfold smin. rred. destruct (Rltb _ _) eqn:Q; rbool; lra. }
  assert (E42 : INR (ex_nn - 1) * dxk = 42 / 10) by (rewrite ex_nn_1; unfold dxk; lra).
  rewrite <- Em, <- E42.
  apply next_dt_total with (traj := ex_traj o) (n := (ex_nn - 1)%nat) (c := ex_corner o) (L := 205 / 100 * dxk) (x0 := -2);
    try assumption.
  - rewrite Cx. lra.
  - rewrite Cz. lra.
  - unfold ex_nn. lia.
  - rewrite ex_nn_1. lra.
  - rewrite ex_nn_1. reflexivity.
  - apply ex_traj_length.
  - rewrite map_length. apply ex_traj_length.
  - intros k Hk. apply map_nth_error, ex_traj_nth, Hk.
  - intros f Hin k Hk. apply ex_corner_near; assumption.
  - apply ex_corner_forward.
  - unfold dxk. lra.
  - rewrite Em. unfold dxk. lra.
  - rewrite Em, ex_nn_1. unfold dxk. lra.
Qed.

(** The pose at [t]: on the line X, and close to the parabola and to its tangent. *)
Definition on_track (o t : R) (p : rvec * rquat) : Prop :=
  let x := -2 + 42 / 10 * (t / 8) in
  vx (fst p) = x /\ vy (fst p) = 0 /\
  Rabs (vz (fst p) - (/ 4 + 5 / 4 * ((x - / 10) / (21 / 10))²)) <= / 1000000 /\
  exists a, snd p = angle_to_quat (K := FltR) sin cos (mkVec 0 a 0) /\
    Rabs (a - (- o + atan (5 / 2 * (x - / 10) / (21 / 10)²))) <= / 1000.

Lemma ex_on_track o t p : 0 <= t < 8 -> pose_of (ex_traj o) (8 / 9999) t p -> on_track o t p.
Proof.
  intros Ht (u & v & U & V & ->). set (dt := 8 / 9999) in *.
  assert (Hdt : 0 < dt) by (unfold dt; lra).
  pose proof (zceil_spec (t / dt)) as Zc. set (k := zceil (t / dt)) in *.
  apply at_index_inv in U as [K0 U]. apply at_index_inv in V as [_ V].
  assert (K1 : (Z.to_nat (k + 1) <= ex_nn - 1)%nat).
  { assert (Z.to_nat (k + 1) < length (ex_traj o))%nat by (apply nth_error_Some; congruence).
    rewrite ex_traj_length in H. lia. }
  rewrite ex_traj_nth in U by lia. rewrite ex_traj_nth in V by lia. injection U as <-. injection V as <-.
  set (b := (t - IZR k * dt) / dt).
  assert (Eb : b = t / dt - IZR k) by (subst b; field; lra).
  assert (B : -1 < b <= 0) by lra.
  replace (Z.to_nat (k + 1)) with (S (Z.to_nat k)) by lia. set (n := Z.to_nat k) in *.
  assert (In : INR n = IZR k) by (subst n; rewrite INR_IZR_INZ, Z2Nat.id by lia; reflexivity).
  assert (D : 0 < dxk < / 2000) by (unfold dxk; lra).
  unfold on_track. cbv zeta. set (x := -2 + 42 / 10 * (t / 8)).
  assert (Ex : x = -2 + (INR n + b) * dxk).
  { rewrite Eb, In. unfold x, dt, dxk. lra. }
  assert (X0 : xk n = x - b * dxk) by (rewrite Ex; unfold xk; ring).
  assert (X1 : xk (S n) = x + (1 - b) * dxk) by (rewrite Ex; unfold xk; rewrite S_INR; ring).
  assert (Q : 0 <= - b * (1 - b) <= 2) by (split; [apply Rmult_le_pos; lra|nra]).
  assert (D2 : 0 <= dxk * dxk <= 1765 / 9999000000).
  { split; [nra|]. unfold dxk. lra. }
  cbn [fst snd]. split; [|split; [|split]].
  - rewrite vx_blend. unfold ex_point, point. cbn [fst vx]. rewrite X0, X1.
    match goal with |- ?l = ?r => change (@eq R l r) end. ring.
  - unfold blend, vmap2, ex_point, point. rred. cbn [fst snd vx vy vz]. ring.
  - unfold blend, vmap2, ex_point, point. rred. cbn [fst snd vx vy vz].
    rewrite X0, X1. unfold height, Rsqr.
    match goal with |- Rabs ?e <= _ => replace e with (- (125 / 441) * (- b * (1 - b)) * (dxk * dxk)) by field end.
    rewrite Rabs_mult, Rabs_mult, (Rabs_pos_eq (- b * (1 - b))), (Rabs_pos_eq (dxk * dxk)) by lra.
    rewrite Rabs_Ropp, Rabs_pos_eq by lra.
    apply Rle_trans with (125 / 441 * 2 * (1765 / 9999000000)); [|lra].
    apply Rmult_le_compat; [nra|lra|nra|lra].
  - set (th y := atan (slope (-2) (3 / 2) (/ 10) (/ 4) y)).
    exists ((1 - b) * (- o + th (xk n)) + b * (- o + th (xk (S n)))). split.
    + f_equal. unfold blend, vmap2, ex_point, point. rred. cbn [fst snd vx vy vz]. fold (th (xk n)). fold (th (xk (S n))).
      apply vec_eq; cbn [vx vy vz]; ring.
    + replace (atan (5 / 2 * (x - / 10) / (21 / 10)²)) with (th x)
        by (unfold th, slope, Rsqr; f_equal; field).
      assert (L : forall y z, Rabs (th y - th z) <= 250 / 441 * Rabs (y - z)).
      { intros y z. eapply Rle_trans; [apply atan_near|].
        replace (slope (-2) (3 / 2) (/ 10) (/ 4) y - slope (-2) (3 / 2) (/ 10) (/ 4) z) with (250 / 441 * (y - z))
          by (unfold slope, Rsqr; field).
        rewrite Rabs_mult, (Rabs_pos_eq (250 / 441)) by lra. lra. }
      pose proof (L (xk n) x) as L0. pose proof (L (xk (S n)) x) as L1. rewrite X0 in L0 at 2. rewrite X1 in L1 at 2.
      replace (x - b * dxk - x) with (- b * dxk) in L0 by ring.
      replace (x + (1 - b) * dxk - x) with ((1 - b) * dxk) in L1 by ring.
      rewrite (Rabs_pos_eq (- b * dxk)) in L0 by (apply Rmult_le_pos; lra).
      rewrite (Rabs_pos_eq ((1 - b) * dxk)) in L1 by (apply Rmult_le_pos; lra).
      replace ((1 - b) * (- o + th (xk n)) + b * (- o + th (xk (S n))) - (- o + th x)) with
        ((1 - b) * (th (xk n) - th x) + b * (th (xk (S n)) - th x)) by ring.
      eapply Rle_trans; [apply Rabs_triang|]. rewrite !Rabs_mult, (Rabs_pos_eq (1 - b)), (Rabs_left1 b) by lra.
      assert (M0 : (1 - b) * Rabs (th (xk n) - th x) <= (1 - b) * (250 / 441 * (- b * dxk)))
        by (apply Rmult_le_compat_l; lra).
      assert (M1 : - b * Rabs (th (xk (S n)) - th x) <= - b * (250 / 441 * ((1 - b) * dxk)))
        by (apply Rmult_le_compat_l; lra).
      assert (M2 : - b * (1 - b) * dxk <= 2 * dxk) by (apply Rmult_le_compat_r; lra).
      unfold dxk in *. lra.
Qed.

Lemma point_on_track o t k : xk k = -2 + 42 / 10 * (t / 8) ->
  on_track o t (point_pose (K := FltR) sin cos (ex_point o k)).
Proof.
  intros E. unfold on_track, point_pose, ex_point, point. cbv zeta. cbn [fst snd vx vy vz]. rewrite <- E.
  split; [reflexivity|]. split; [reflexivity|]. split.
  - unfold height, Rsqr. match goal with |- Rabs ?e <= _ => replace e with 0 by field end.
    rewrite Rabs_R0. lra.
  - eexists. split; [reflexivity|].
    replace (slope (-2) (3 / 2) (/ 10) (/ 4) (xk k)) with (5 / 2 * (xk k - / 10) / (21 / 10)²)
      by (unfold slope, Rsqr; field).
    match goal with |- Rabs ?e <= _ => replace e with 0 by ring end. rewrite Rabs_R0. lra.
Qed.

Lemma ex_times o fuel : (5001 <= Z.of_nat fuel)%Z ->
  exists p0 ps pn ts,
    rplan ex_g ex_b (ex_traj o) fuel = Ok (p0 :: ps ++ [pn], ts ++ [8]) /\
    rstepped ex_g ex_b (ex_traj o) fuel = Ok (p0 :: ps) /\
    hd 0 ts = / 10 /\ spaced (/ 625) (61 / 2000) ts /\
    Forall (fun t => / 10 <= t < 8) ts /\ 8 - 61 / 1000 <= last ts 0 /\
    on_track o 0 p0 /\ Forall2 (on_track o) ts ps /\ on_track o 8 pn.
Proof.
  intros Hf. destruct (ex_plan_total o fuel Hf) as (ps & ts & E).
  destruct (last_pose_left _ _ _ _ _ _ _ _ E) as (q & pn & S1 & _ & Nl & Eq).
  destruct (plan_shape _ _ _ _ _ _ _ _ E) as (ps' & ts' & p0 & pn' & E1 & E2 & N0 & Nl' & L).
  rewrite Nl in Nl'. injection Nl' as <-.
  exists (point_pose (K := FltR) sin cos p0), ps', (point_pose (K := FltR) sin cos pn), ts'.
  split; [rewrite E, E1, E2; reflexivity|]. split.
  { rewrite S1. f_equal. rewrite E1 in Eq.
    change (point_pose (K := FltR) sin cos p0 :: ps' ++ [point_pose (K := FltR) sin cos pn]) with
      ((point_pose (K := FltR) sin cos p0 :: ps') ++ [point_pose (K := FltR) sin cos pn]) in Eq.
    apply app_inj_tail in Eq as [Eq _]. symmetry. exact Eq. }
  rewrite ex_traj_length in L, Nl.
  match type of L with time_loop _ _ _ _ _ ?d _ ?x ?y = _ =>
    change d with (8 / IZR (Z.of_nat (S (ex_nn - 1)) - 1)) in L;
    assert (Ds : x = / 10) by apply dt_start_eq end.
  replace (Z.of_nat (S (ex_nn - 1)) - 1)%Z with 9999%Z in L by (unfold ex_nn; lia).
  destruct (loop_times ex_g (ex_traj o) (map (ecorners ex_b) (ex_traj o)) (8 / 9999) ltac:(lra)
    (/ 625) (61 / 2000) (fun time dt => / 10 <= time /\ 2 * (8 / 9999) <= dt <= / 5)
    ltac:(intros; lra) ltac:(lra) ltac:(lra)) with (fuel := fuel) (time := (/ 10)) (dt := (/ 10)) (ps := ps') (ts := ts')
    as (I1 & I2 & I3 & I4).
  - intros time dt a b dt' (T1 & T2) T3 -> -> Q.
    pose proof (zceil_spec (time / (8 / 9999))) as Zc. set (k := zceil (time / (8 / 9999))) in *.
    set (b := (time - IZR k * (8 / 9999)) / (8 / 9999)) in *.
    assert (Eb : b = time / (8 / 9999) - IZR k) by (subst b; field).
    replace ((IZR (k + 1) * (8 / 9999) - time) / (8 / 9999)) with (1 - b) in Q
      by (subst b; rewrite plus_IZR; field).
    destruct (ex_next o time dt (1 - b) b T1 T2 T3 ltac:(lra) ltac:(lra) ltac:(lra)) as (d & Q' & R1 & R2).
    rewrite Q in Q'. injection Q' as <-. split; [lra|]. split; lra.
  - lra.
  - rewrite <- Ds at 1 2. exact L.
  - destruct ts' as [|t0 tl]; [lra|]. destruct I4 as (-> & z & Z1 & Z2).
    split; [reflexivity|]. split; [exact I2|]. split; [exact I3|]. split; [subst z; eapply Rle_trans; [|exact Z2]; lra|].
    split; [|split].
    + rewrite ex_traj_nth in N0 by lia. injection N0 as <-. apply point_on_track. unfold xk. cbn [INR]. lra.
    + clear - I1 I3. revert I3. induction I1 as [|t p tl' pl Hp Hl IH]; intros F; [constructor|].
      pose proof (Forall_inv F) as F1. apply Forall_inv_tail in F. constructor; [|exact (IH F)].
      apply ex_on_track; [cbv beta in F1; lra|exact Hp].
    + replace (S (ex_nn - 1) - 1)%nat with (ex_nn - 1)%nat in Nl by lia.
      rewrite ex_traj_nth in Nl by lia.
      assert (Q : ex_point o (ex_nn - 1) = pn) by congruence. rewrite <- Q.
      apply (point_on_track o 8 (ex_nn - 1)). unfold xk. rewrite ex_nn_1. unfold dxk. lra.
Qed.
