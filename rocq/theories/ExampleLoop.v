(** The choice of the times of the example program over the real numbers. *)
From Coq Require Import Reals ZArith List Bool Lra Lia.
From Verif Require Import Outcome Base Flt FltR FltRFacts ModelTypes ModelGeometry ModelExample
  SpecGeo GeoProofs InsideProofs ExampleProofs.
Import ListNotations.
Open Scope R_scope.

Lemma at_index_Ok {T} (l : list T) (f : nat -> T) n : length l = S n ->
  (forall k, (k <= n)%nat -> nth_error l k = Some (f k)) ->
  forall z, (0 <= z <= Z.of_nat n)%Z -> at_index l z = Ok (f (Z.to_nat z)).
Proof.
  intros _ H z Hz. unfold at_index. replace (z <? 0)%Z with false by (symmetry; apply Z.ltb_ge; lia).
  rewrite (H (Z.to_nat z)) by lia. reflexivity.
Qed.

Lemma time_index_Ok dt t : 0 < dt -> 0 <= t / dt <= 2147483647 ->
  time_index (K := FltR) dt t = Ok (zceil (t / dt)).
Proof.
  intros Hd Ht. unfold time_index. rred. change (IZR (zceil (t / dt))) with (IZR (zceil (t / dt)) : R).
  rewrite s_int_IZR. replace (int_ok (zceil (t / dt))) with true; [reflexivity|].
  symmetry. apply int_ok_iff. destruct Ht as [H1 H2].
  apply zceil_mono in H1. apply zceil_mono in H2.
  change 0 with (IZR 0) in H1. rewrite zceil_IZR in H1. rewrite zceil_IZR in H2. lia.
Qed.

(** ** Maximum *)
Lemma rsmax_spec (a b : R) : a <= smax (K := FltR) a b /\ b <= smax (K := FltR) a b /\
  (smax (K := FltR) a b = a \/ smax (K := FltR) a b = b).
Proof. unfold smax. rred. destruct (Rltb a b) eqn:E; rbool; lra. Qed.

Lemma smax_list_ge (l : list R) : forall a, a <= smax_list (K := FltR) a l /\
  forall x, In x l -> x <= smax_list (K := FltR) a l.
Proof.
  unfold smax_list. induction l as [|b l IH]; intros a; cbn [fold_left]; [split; [lra|intros x []]|].
  destruct (rsmax_spec a b) as (H1 & H2 & _). destruct (IH (smax (K := FltR) a b)) as [I1 I2].
  split; [eapply Rle_trans; eassumption|]. intros x [<-|Hx]; [eapply Rle_trans; eassumption|auto].
Qed.
Lemma smax_list_in (l : list R) : forall a,
  smax_list (K := FltR) a l = a \/ In (smax_list (K := FltR) a l) l.
Proof.
  unfold smax_list. induction l as [|b l IH]; intros a; cbn [fold_left]; [auto|].
  destruct (rsmax_spec a b) as (_ & _ & H). destruct (IH (smax (K := FltR) a b)) as [I|I].
  - rewrite I. destruct H as [H|H]; [left; exact H|right; left; symmetry; exact H].
  - right. right. exact I.
Qed.

(** ** Blends *)
Notation rblend := (blend (K := FltR)).

Lemma blend_near a b (u v u' v' : rvec) d : 0 <= a -> b <= 0 -> 0 <= d ->
  vdist u u' <= d -> vdist v v' <= d -> vdist (rblend a b u v) (rblend a b u' v') <= (a - b) * d.
Proof.
  intros Ha Hb Hd H1 H2. unfold vdist in *.
  assert (E : vsub (rblend a b u v) (rblend a b u' v') =
    vadd (vscale a (vsub u u')) (vscale (- b) (vsub v' v))).
  { unfold blend, vsub, vadd, vscale, vmap2. rred. cbn [vx vy vz]. apply vec_eq; cbn [vx vy vz]; ring. }
  rewrite E. eapply Rle_trans; [apply vlen_triangle|]. rewrite !vlen_vscale by lra.
  assert (Q : vlen (vsub v' v) = vlen (vsub v v')).
  { unfold vlen. f_equal. unfold dot, vsub. cbn [vx vy vz]. ring. }
  rewrite Q. pose proof (Rmult_le_compat_l a _ _ Ha H1).
  pose proof (Rmult_le_compat_l (- b) _ _ ltac:(lra) H2). lra.
Qed.

Lemma speed_dist dt (u v : rvec) : speed (K := FltR) dt u v = vdist u v / dt.
Proof. reflexivity. Qed.

Lemma vdist_x (u v : rvec) : vx u - vx v <= vdist u v.
Proof.
  unfold vdist, vlen, dot, vsub. cbn [vx vy vz]. apply Rle_trans with (Rabs (vx u - vx v)); [apply Rle_abs|].
  rewrite <- sqrt_Rsqr_abs. apply sqrt_le_1_alt.
  pose proof (Rle_0_sqr (vy u - vy v)). pose proof (Rle_0_sqr (vz u - vz v)). unfold Rsqr in *. lra.
Qed.
Lemma vx_blend a b (u v : rvec) : vx (rblend a b u v) = vx u * a + vx v * b.
Proof. reflexivity. Qed.

Lemma le_div x M V : 0 < V -> x * V <= M -> x <= M / V.
Proof.
  intros P H. apply Rmult_le_reg_r with V; [exact P|]. replace (M / V * V) with M by (field; lra). exact H.
Qed.
Lemma div_le x M V : 0 < V -> M <= x * V -> M / V <= x.
Proof.
  intros P H. apply Rmult_le_reg_r with V; [exact P|]. replace (M / V * V) with M by (field; lra). exact H.
Qed.

Section Loop.
  Variable g : ggrid FltR.
  Variable traj : list (rvec * rvec).
  Variable cs : list (corners FltR).
  Variable dt_int : R.
  Hypothesis Cxy : 0 < (g_cell_xy g : R).
  Hypothesis Cz : 0 < (g_cell_z g : R).
  Notation m := (smin (K := FltR) (g_cell_xy g) (g_cell_z g)).

  Lemma cell_pos : 0 < (m : R).
  Proof. unfold smin. rred. destruct (Rltb _ _); assumption. Qed.

  (** The six speeds. *)
  Definition vels (dt : R) (plus minus : list rvec) : list R :=
    map (fun p => speed (K := FltR) dt (fst p) (snd p)) (combine plus minus).
  Definition top_vel (dt : R) (plus minus : list rvec) : R :=
    5 / 4 * smax_list (K := FltR) (hd 0 (vels dt plus minus)) (tl (vels dt plus minus)).

  Lemma vels_nonneg dt plus minus : 0 < dt -> Forall (fun x => 0 <= x) (vels dt plus minus).
  Proof.
    intros Hd. unfold vels. apply Forall_forall. intros x Hx. apply in_map_iff in Hx as ([u v] & <- & _).
    rewrite speed_dist. apply Rmult_le_pos; [apply vlen_nonneg|]. left. apply Rinv_0_lt_compat, Hd.
  Qed.

  Lemma top_vel_nonneg dt plus minus : 0 < dt -> 0 <= top_vel dt plus minus.
  Proof.
    intros Hd. unfold top_vel. pose proof (vels_nonneg dt plus minus Hd) as F.
    destruct (vels dt plus minus) as [|x l]; cbn [hd tl].
    - unfold smax_list. cbn [fold_left]. lra.
    - pose proof (Forall_inv F) as Hx. destruct (smax_list_ge l x) as [H _]. cbn in Hx. lra.
  Qed.
  Lemma top_vel_le dt plus minus V : 0 <= V -> Forall (fun x => x <= V) (vels dt plus minus) ->
    top_vel dt plus minus <= 5 / 4 * V.
  Proof.
    intros Hv F. unfold top_vel. destruct (vels dt plus minus) as [|x l]; cbn [hd tl].
    - unfold smax_list. cbn [fold_left]. lra.
    - rewrite Forall_forall in F. apply Rmult_le_compat_l; [lra|].
      destruct (smax_list_in l x) as [H|H]; [rewrite H; apply F; left; reflexivity|apply F; right; exact H].
  Qed.
  Lemma top_vel_ge dt plus minus x l : vels dt plus minus = x :: l -> 5 / 4 * x <= top_vel dt plus minus.
  Proof.
    intros E. unfold top_vel. rewrite E. cbn [hd tl]. destruct (smax_list_ge l x) as [H _]. lra.
  Qed.

  Lemma next_dt_form time dt a b dt' : 
    next_dt (K := FltR) g cs dt_int time dt a b = Ok dt' ->
    exists plus minus,
      dt' = if Reqb (top_vel dt plus minus) 0 then dt_max (K := FltR) else m / top_vel dt plus minus.
  Proof.
    unfold next_dt. intros E. apply bind_ok in E as (kp & _ & E). apply bind_ok in E as (plus & _ & E).
    apply bind_ok in E as (km & _ & E). apply bind_ok in E as (minus & _ & E).
    exists plus, minus. injection E as <-. reflexivity.
  Qed.

  Lemma dt_max_eq : (dt_max (K := FltR) : R) = / 5.
  Proof. unfold dt_max. rred. lra. Qed.
  Lemma dt_start_eq : (dt_start (K := FltR) : R) = / 10.
  Proof. unfold dt_start. rred. lra. Qed.

  Lemma next_dt_pos time dt a b dt' : 0 < dt ->
    next_dt (K := FltR) g cs dt_int time dt a b = Ok dt' -> 0 < (dt' : R).
  Proof.
    intros Hd E. apply next_dt_form in E as (plus & minus & ->). pose proof cell_pos as Hm.
    destruct (Reqb _ _) eqn:Q; rbool.
    - change (0 < (dt_max (K := FltR) : R)). rewrite dt_max_eq. lra.
    - pose proof (top_vel_nonneg dt plus minus Hd). apply Rmult_lt_0_compat; [exact Hm|].
      apply Rinv_0_lt_compat. lra.
  Qed.

  (** The pose of the loop at time [t]. *)
  Definition pose_of (t : R) (p : rvec * rquat) : Prop :=
    exists u v, at_index traj (zceil (t / dt_int)) = Ok u /\
      at_index traj (zceil (t / dt_int) + 1) = Ok v /\
      let b := (t - IZR (zceil (t / dt_int)) * dt_int) / dt_int in
      p = (rblend (1 - b) b (fst u) (fst v),
           angle_to_quat (K := FltR) sin cos (rblend (1 - b) b (snd u) (snd v))).

  (** Whatever the loop returns. *)
  Lemma time_loop_poses fuel : 0 < dt_int -> forall time dt ps ts, 0 < dt -> 0 <= time ->
    time_loop (K := FltR) sin cos g traj cs dt_int fuel time dt = Ok (ps, ts) ->
    length ps = length ts /\
    Forall (fun p => exists t, time <= t < 8 /\ pose_of t p) ps.
  Proof.
    intros Hi. induction fuel as [|fuel IH]; intros time dt ps ts Hd Ht E; [discriminate|].
    cbn [time_loop] in E. revert E. unfold total_time. rred.
    destruct (Rltb (time + dt) 8) eqn:Q; rbool; intros E.
    2: { injection E as <- <-. auto. }
    apply bind_ok in E as (kk & E1 & E). apply bind_ok in E as (p & E2 & E).
    apply bind_ok in E as (dt' & E3 & E). apply bind_ok in E as ([ps' ts'] & E4 & E).
    injection E as <- <-.
    pose proof (next_dt_pos time dt _ _ dt' Hd E3) as Hd'.
    assert (Hk : kk = zceil (time / dt_int)).
    { unfold time_index in E1. rred. revert E1.
      change (s_int (K := FltR) (IZR (zceil (time / dt_int))) = Ok kk -> kk = zceil (time / dt_int)).
      rewrite s_int_IZR. destruct (int_ok _); congruence. }
    set (st := if Rltb (dt_max (K := FltR)) dt' then dt_max (K := FltR) else dt') in E4.
    assert (Hst : 0 < (st : R)).
    { unfold st. destruct (Rltb _ _); [|exact Hd'].
      change (0 < (dt_max (K := FltR) : R)). rewrite dt_max_eq. lra. }
    destruct (IH (time + st) dt' ps' ts' Hd' ltac:(lra) E4) as [I1 I2].
    split; [cbn [length]; congruence|]. constructor.
    - exists time. split; [lra|]. unfold pose_at in E2.
      apply bind_ok in E2 as (u & U & E2). apply bind_ok in E2 as (v & V & E2).
      injection E2 as <-. exists u, v. rewrite <- Hk. split; [exact U|]. split; [exact V|].
      cbv zeta. set (b := (time - IZR kk * dt_int) / dt_int).
      replace ((IZR (kk + 1) * dt_int - time) / dt_int) with (1 - b)
        by (subst b; rewrite plus_IZR; field; lra). reflexivity.
    - eapply Forall_impl; [|exact I2]. intros q (t & T & Q'). exists t. split; [lra|exact Q'].
  Qed.

  (** ** The loop ends *)
  Variable n : nat.
  Variable tr : nat -> rvec * rvec.
  Variable c : nat -> corners FltR.
  Variables (L x0 delta : R).
  Hypothesis Hn : (2 <= n)%nat.
  Hypothesis Hn' : INR n <= 2147483647.
  Hypothesis Hdt : dt_int = 8 / INR n.
  Hypothesis Ltr : length traj = S n.
  Hypothesis Lcs : length cs = S n.
  Hypothesis Tr : forall k, (k <= n)%nat -> nth_error traj k = Some (tr k).
  Hypothesis Cs : forall k, (k <= n)%nat -> nth_error cs k = Some (c k).
  (** Consecutive corners are close, and the body goes forward. *)
  Hypothesis Near : forall f : corners FltR -> rvec, In f [@j_l FltR; @j_r FltR; @b_l FltR; @b_r FltR; @t_l FltR; @t_r FltR] ->
    forall k, (k < n)%nat -> vdist (f (c (S k))) (f (c k)) <= L.
  Hypothesis Forward : forall k, (k <= n)%nat -> vx (j_l (c k)) = x0 + INR k * delta.
  Hypothesis L0 : 0 <= L.
  Hypothesis Small : 45 / 4 * L <= (m : R).
  Hypothesis Quick : 64 * (m : R) <= INR n * delta.

  Lemma n_pos : 2 <= INR n.
  Proof. apply le_INR in Hn. exact Hn. Qed.
  Lemma dt_int_pos : 0 < dt_int.
  Proof. rewrite Hdt. pose proof n_pos. apply Rmult_lt_0_compat; [lra|]. apply Rinv_0_lt_compat. lra. Qed.
  Lemma dt_int_n : INR n * dt_int = 8.
  Proof. rewrite Hdt. pose proof n_pos. field. lra. Qed.

  (** A time that leaves a point after it. *)
  Lemma index_range t : 0 <= t <= 8 - dt_int ->
    time_index (K := FltR) dt_int t = Ok (zceil (t / dt_int)) /\
    (0 <= zceil (t / dt_int) < Z.of_nat n)%Z /\
    IZR (zceil (t / dt_int)) - 1 < t / dt_int <= IZR (zceil (t / dt_int)).
  Proof.
    intros Ht. pose proof dt_int_pos as D. pose proof dt_int_n as E. pose proof n_pos.
    assert (A : 0 <= t / dt_int <= INR n - 1).
    { split; [apply Rmult_le_pos; [lra|left; apply Rinv_0_lt_compat; lra]|].
      apply Rmult_le_reg_r with dt_int; [lra|]. unfold Rdiv. rewrite Rmult_assoc, Rinv_l by lra. lra. }
    split; [apply time_index_Ok; lra|]. split; [|apply zceil_spec].
    destruct A as [A1 A2]. apply zceil_mono in A1. apply zceil_mono in A2.
    change 0 with (IZR 0) in A1. rewrite zceil_IZR in A1.
    replace (INR n - 1) with (IZR (Z.of_nat n - 1)) in A2
      by (rewrite minus_IZR, <- INR_IZR_INZ; reflexivity).
    rewrite zceil_IZR in A2. lia.
  Qed.

  Lemma corners_near f k j : In f [@j_l FltR; @j_r FltR; @b_l FltR; @b_r FltR; @t_l FltR; @t_r FltR] ->
    (k + j <= n)%nat -> vdist (f (c (k + j)%nat)) (f (c k)) <= INR j * L.
  Proof.
    intros Hf. induction j as [|j IH]; intros H.
    - rewrite Nat.add_0_r. unfold vdist.
      replace (vsub (f (c k)) (f (c k))) with v0
        by (unfold vsub, v0; apply vec_eq; cbn [vx vy vz]; ring).
      unfold vlen, dot, v0. cbn [vx vy vz INR]. replace (0 * 0 + 0 * 0 + 0 * 0) with 0 by ring.
      rewrite sqrt_0. lra.
    - specialize (IH ltac:(lia)). pose proof (Near f Hf (k + j)%nat ltac:(lia)) as Nr.
      replace (k + S j)%nat with (S (k + j)) by lia. rewrite S_INR.
      unfold vdist in *.
      replace (vsub (f (c (S (k + j)))) (f (c k))) with
        (vadd (vsub (f (c (S (k + j)))) (f (c (k + j)%nat))) (vsub (f (c (k + j)%nat)) (f (c k))))
        by (unfold vsub, vadd; apply vec_eq; cbn [vx vy vz]; ring).
      eapply Rle_trans; [apply vlen_triangle|]. lra.
  Qed.

  Lemma next_dt_total time dt a b :
    / 10 <= time -> 2 * dt_int <= dt <= / 5 -> time + dt < 8 ->
    1 <= a -> - 1 <= b <= 0 -> a + b = 1 ->
    exists dt', next_dt (K := FltR) g cs dt_int time dt a b = Ok dt' /\
      2 * dt_int <= dt' <= / 5 /\ dt' * (INR n * delta) <= 64 / 5 * (m : R).
  Proof.
    intros T D E Ha Hb Hab. pose proof dt_int_pos as D0. pose proof n_pos as Np. pose proof dt_int_n as Dn.
    pose proof cell_pos as Mp.
    destruct (index_range (time + / 2 * dt) ltac:(lra)) as (P1 & P2 & P3).
    destruct (index_range (time - / 2 * dt) ltac:(lra)) as (M1 & M2 & M3).
    set (kp := zceil ((time + / 2 * dt) / dt_int)) in *.
    set (km := zceil ((time - / 2 * dt) / dt_int)) in *.
    assert (Df : (time + / 2 * dt) / dt_int - (time - / 2 * dt) / dt_int = dt / dt_int) by (field; lra).
    assert (Q2 : 2 <= dt / dt_int).
    { apply Rmult_le_reg_r with dt_int; [lra|]. unfold Rdiv. rewrite Rmult_assoc, Rinv_l by lra. lra. }
    assert (K1 : (km <= kp)%Z).
    { apply le_IZR. assert (IZR kp > IZR km - 1 + 1) by lra. lra. }
    set (j := Z.to_nat (kp - km)). set (k := Z.to_nat km).
    assert (Ij : INR j = IZR kp - IZR km).
    { subst j. rewrite INR_IZR_INZ, Z2Nat.id, minus_IZR by lia. reflexivity. }
    assert (Jhi : INR j <= dt / dt_int + 1) by lra.
    assert (Jlo : dt / dt_int - 1 <= INR j) by lra.
    unfold next_dt.
    change (nar (f := FltR) (dadd (f := FltR) (wid (f := FltR) time)
      (dmul (f := FltR) (d_half (K := FltR)) (wid (f := FltR) dt)))) with (time + 1 / 2 * dt).
    change (nar (f := FltR) (dsub (f := FltR) (wid (f := FltR) time)
      (dmul (f := FltR) (d_half (K := FltR)) (wid (f := FltR) dt)))) with (time - 1 / 2 * dt).
    replace (1 / 2) with (/ 2) by lra.
    rewrite P1, M1. cbn [bind]. unfold blend_corners.
    rewrite !(at_index_Ok cs c n Lcs Cs) by lia. cbn [bind].
    fold kp km.
    replace (Z.to_nat kp) with (k + j)%nat by lia. replace (Z.to_nat (kp + 1)) with (S k + j)%nat by lia.
    fold k. replace (Z.to_nat (km + 1)) with (S k) by lia.
    cbn [map].
    match goal with |- context [combine ?p ?q] => set (plus := p); set (minus := q) end.
    eexists. split; [reflexivity|].
    change (2 * dt_int <= (if Reqb (top_vel dt plus minus) 0 then dt_max (K := FltR) else m / top_vel dt plus minus) <= / 5 /\
      (if Reqb (top_vel dt plus minus) 0 then dt_max (K := FltR) else m / top_vel dt plus minus) * (INR n * delta) <= 64 / 5 * (m : R)).
    (* bounds on the speed *)
    assert (Up : top_vel dt plus minus <= 5 / 4 * (3 * (INR j * L) / dt)).
    { apply top_vel_le.
      { apply Rmult_le_pos; [|left; apply Rinv_0_lt_compat; lra].
        apply Rmult_le_pos; [lra|]. apply Rmult_le_pos; [apply pos_INR|exact L0]. }
      assert (One : forall f, In f [@j_l FltR; @j_r FltR; @b_l FltR; @b_r FltR; @t_l FltR; @t_r FltR] ->
        speed (K := FltR) dt (rblend a b (f (c (k + j)%nat)) (f (c (S k + j)%nat)))
          (rblend a b (f (c k)) (f (c (S k)))) <= 3 * (INR j * L) / dt).
      { intros f Hf. rewrite speed_dist. apply Rmult_le_compat_r; [left; apply Rinv_0_lt_compat; lra|].
        assert (J0 : 0 <= INR j * L) by (apply Rmult_le_pos; [apply pos_INR|exact L0]).
        eapply Rle_trans; [apply blend_near with (d := INR j * L)|].
        - lra.
        - lra.
        - exact J0.
        - apply corners_near; [exact Hf|lia].
        - apply corners_near; [exact Hf|lia].
        - apply Rmult_le_compat_r; [exact J0|lra]. }
      subst plus minus. unfold vels. cbn [combine map fst snd].
      repeat (apply Forall_cons; [apply One; cbn [In]; tauto|]). apply Forall_nil. }
    assert (Lo : 5 / 4 * ((INR j * delta) / dt) <= top_vel dt plus minus).
    { subst plus minus.
      eapply Rle_trans; [|eapply top_vel_ge; unfold vels; cbn [combine map fst snd]; reflexivity].
      apply Rmult_le_compat_l; [lra|]. rewrite speed_dist.
      apply Rmult_le_compat_r; [left; apply Rinv_0_lt_compat; lra|].
      eapply Rle_trans; [|apply vdist_x]. rewrite !vx_blend, !Forward by lia.
      rewrite !plus_INR, S_INR. replace b with (1 - a) by lra. right. ring. }
    assert (De : 0 < delta).
    { apply Rmult_lt_reg_l with (INR n); [lra|]. lra. }
    assert (Tp : 0 < top_vel dt plus minus).
    { eapply Rlt_le_trans; [|exact Lo]. apply Rmult_lt_0_compat; [lra|].
      apply Rmult_lt_0_compat; [|apply Rinv_0_lt_compat; lra]. apply Rmult_lt_0_compat; lra. }
    destruct (Reqb _ _) eqn:Qe; rbool; [lra|].
    set (V := top_vel dt plus minus) in *.
    assert (Vlo : 5 / 64 * (INR n * delta) <= V).
    { assert (B : / 2 <= INR j / dt * dt_int).
      { apply Rmult_le_reg_r with (dt / dt_int); [lra|].
        replace (INR j / dt * dt_int * (dt / dt_int)) with (INR j) by (field; lra). lra. }
      assert (B' : INR n * delta / 16 <= INR j * delta / dt).
      { replace (INR j * delta / dt) with (INR j / dt * dt_int * (INR n * delta / 8)).
        - assert (0 <= INR n * delta / 8) by (apply Rmult_le_pos; [apply Rmult_le_pos|]; lra).
          pose proof (Rmult_le_compat_r _ _ _ H B). lra.
        - rewrite <- Dn. field. split; lra. }
      lra. }
    split; [split|].
    - (* V * (2 dt_int) <= m *)
      apply le_div; [exact Tp|].
      eapply Rle_trans; [apply Rmult_le_compat_l; [lra|exact Up]|].
      assert (B : INR j / dt * dt_int <= 3 / 2).
      { apply Rmult_le_reg_r with (dt / dt_int); [lra|].
        replace (INR j / dt * dt_int * (dt / dt_int)) with (INR j) by (field; lra). lra. }
      replace (2 * dt_int * (5 / 4 * (3 * (INR j * L) / dt))) with
        (15 / 2 * L * (INR j / dt * dt_int)) by (field; lra).
      eapply Rle_trans; [apply Rmult_le_compat_l; [lra|exact B]|]. lra.
    - (* m <= V / 5 *)
      apply div_le; [exact Tp|]. lra.
    - replace (m / V * (INR n * delta)) with (INR n * delta * m / V) by (unfold Rdiv; ring).
      apply div_le; [exact Tp|].
      replace (INR n * delta * m) with (m * (INR n * delta)) by ring.
      replace (64 / 5 * m * V) with (m * (64 / 5 * V)) by ring.
      apply Rmult_le_compat_l; lra.
  Qed.

  Lemma time_loop_total fuel : forall time dt, / 10 <= time -> 2 * dt_int <= dt <= / 5 ->
    8 - time <= INR fuel * (2 * dt_int) ->
    exists ps ts, time_loop (K := FltR) sin cos g traj cs dt_int (S fuel) time dt = Ok (ps, ts).
  Proof.
    pose proof dt_int_pos as D0.
    induction fuel as [|fuel IH]; intros time dt T D F; cbn [time_loop]; unfold total_time; rred.
    { cbn [INR] in F. destruct (Rltb (time + dt) 8) eqn:Q; rbool; [lra|]. eauto. }
    destruct (Rltb (time + dt) 8) eqn:Q; rbool; [|eauto].
    destruct (index_range time ltac:(lra)) as (I1 & I2 & I3). rewrite I1. cbn [bind].
    set (kk := zceil (time / dt_int)) in *.
    set (b := (time - IZR kk * dt_int) / dt_int).
    assert (Eb : b = time / dt_int - IZR kk) by (subst b; field; lra).
    replace ((IZR (kk + 1) * dt_int - time) / dt_int) with (1 - b)
      by (subst b; rewrite plus_IZR; field; lra).
    unfold pose_at. rewrite !(at_index_Ok traj tr n Ltr Tr) by lia. cbn [bind].
    destruct (next_dt_total time dt (1 - b) b T D Q ltac:(lra) ltac:(lra) ltac:(lra)) as (dt' & E & B & _).
    rewrite E. cbn [bind].
    assert (Sg : (if Rltb (dt_max (K := FltR)) dt' then dt_max (K := FltR) else dt') = dt').
    { destruct (Rltb _ _) eqn:Q'; rbool; [|reflexivity]. pose proof dt_max_eq. lra. }
    rewrite S_INR in F.
    destruct (IH (time + dt') dt' ltac:(lra) B ltac:(lra)) as (ps & ts & E').
    cbn [time_loop] in E'. unfold total_time in E'. revert E'. rred.
    match goal with |- ?x = _ -> exists _ _, bind ?y _ = _ => replace y with x end.
    - intros ->. cbn [bind]. eauto.
    - cbn [time_loop]. rewrite Sg. reflexivity.
  Qed.
End Loop.
