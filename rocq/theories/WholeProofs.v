(** The hypotheses of the properties of Step hold of the geometry of the code. *)
From Coq Require Import Reals ZArith List Bool Lra Lia Psatz.
From Verif Require Import Outcome Num Base Flt FltR FltRFacts State Spec Spec2
  ModelTypes ModelGeometry ModelBodySoil ModelBodyPos ModelStep ModelRaster ModelWhole
  SpecGeo GeoProofs PoseProofs TypesProofs LineProofs LineCells InnerProofs SurfaceProofs
  RasterProofs InsideProofs GeoClaims NoiseProofs.
Import ListNotations.
Open Scope R_scope.

(** The position is far enough from the border of the grid for a body that stays
    within [rho] of it. *)
Definition pose_inside (g : rgrid) (rho : R) (p : rvec * rquat) : Prop :=
  let '(pos, ori) := p in
  ori <> qzero /\
  Rabs (vx pos) + 7 / 4 * (rho + 2 * g_cell_xy g) <= (IZR (g_half_x g) - 1) * g_cell_xy g /\
  Rabs (vy pos) + 7 / 4 * (rho + 2 * g_cell_xy g) <= (IZR (g_half_y g) - 1) * g_cell_xy g /\
  Rabs (vz pos) + rho <= (IZR (g_half_z g) - 2) * g_cell_z g.

Definition wlegal (g : rgrid) (rho : R) (p : wpose) : Prop :=
  match p with Some q => pose_inside g rho q | None => False end.
Definition wnear (g : rgrid) (rho : R) (x : rvec) : Prop := vlen x <= 7 / 4 * (rho + 2 * g_cell_xy g).

Lemma inside_axis : forall c h x r, 0 < c -> Rabs x + r <= (h - 2) * c ->
  2 <= (x - r) / c + h /\ (x + r) / c + h <= 2 * h - 1.
Proof.
  intros c h x r C H. pose proof (Rle_abs x). pose proof (Rle_abs (- x)). rewrite Rabs_Ropp in *.
  split.
  - apply (Rmult_le_reg_r c); auto. replace (((x - r) / c + h) * c) with (x - r + h * c) by (field; lra).
    lra.
  - apply (Rmult_le_reg_r c); auto. replace (((x + r) / c + h) * c) with (x + r + h * c) by (field; lra).
    lra.
Qed.

Lemma inside_ball : forall (g : rgrid) rho pos ori, 0 <= rho -> 0 < g_cell_xy g -> 0 < g_cell_z g ->
  pose_inside g rho (pos, ori) -> ball_inside g rho pos.
Proof.
  intros g rho pos ori R0 Cx Cz (_ & X & Y & Z). unfold ball_inside.
  destruct (inside_axis (g_cell_xy g) (IZR (g_half_x g)) (vx pos) rho Cx ltac:(lra)).
  destruct (inside_axis (g_cell_xy g) (IZR (g_half_y g)) (vy pos) rho Cx ltac:(lra)).
  destruct (inside_axis (g_cell_z g) (IZR (g_half_z g)) (vz pos) rho Cz ltac:(lra)).
  auto 7.
Qed.

(** A point close to the axis is in a cell whose neighbours are in the grid. *)
Lemma index_inside : forall half cell x, 0 < cell -> (1 <= half)%Z -> (2 * half + 1 <= 2147483647)%Z ->
  Rabs x <= (IZR half - 1) * cell ->
  exists n, cell_index (K := FltR) half cell x = Ok n /\ (1 <= n <= 2 * half - 1)%Z.
Proof.
  intros half cell x C H F A. apply Rabs_bound in A.
  assert (Q : 1 <= x / cell + IZR half <= IZR (2 * half - 1)).
  { rewrite minus_IZR, mult_IZR.
    replace (x / cell + IZR half) with ((x + IZR half * cell) / cell) by (field; lra).
    split; apply (Rmult_le_reg_r cell); auto; unfold Rdiv; rewrite Rmult_assoc, Rinv_l by lra; lra. }
  assert (B : (1 <= zround (x / cell + IZR half) <= 2 * half - 1)%Z).
  { destruct Q as [Q1 Q2]. apply zround_mono in Q1. apply zround_mono in Q2.
    rewrite zround_IZR in Q2. change 1 with (IZR 1) in Q1. rewrite zround_IZR in Q1. lia. }
  exists (zround (x / cell + IZR half)). split; [|exact B].
  unfold cell_index. cbn [FltR wid dround].
  change (d_int (K := FltR) (IZR (zround (x / cell + IZR half))) = Ok (zround (x / cell + IZR half))).
  rewrite d_int_round. unfold int_ok.
  replace ((-2147483648 <=? zround (x / cell + IZR half)) &&
           (zround (x / cell + IZR half) <=? 2147483647))%Z with true; auto.
  symmetry. apply andb_true_intro. split; apply Z.leb_le; lia.
Qed.

Lemma axis_reloc : forall p x c h r, Rabs p + r <= (h - 1) * c -> p - r <= x <= p + r ->
  Rabs x <= (h - 1) * c.
Proof.
  intros p x c h r H X. pose proof (Rle_abs p). pose proof (Rle_abs (- p)). rewrite Rabs_Ropp in *.
  apply Rabs_le. lra.
Qed.

(** A point whose three coordinates are within [r] of the origin. *)
Lemma vlen_box : forall v r, 0 <= r -> Rabs (vx v) <= r -> Rabs (vy v) <= r -> Rabs (vz v) <= r ->
  vlen v <= 7 / 4 * r.
Proof.
  intros v r R0 X Y Z. apply Rabs_bound in X. apply Rabs_bound in Y. apply Rabs_bound in Z.
  unfold vlen. rewrite <- (sqrt_square (7 / 4 * r)) by lra. apply sqrt_le_1_alt. unfold dot.
  assert (Q : forall x, - r <= x <= r -> x * x <= r * r) by (intros; nra).
  pose proof (Q _ X). pose proof (Q _ Y). pose proof (Q _ Z). nra.
Qed.

Section Built.
  Variables sx sy sz cxy cz : R.
  Hypothesis Hs : sizes_ok sx sy sz cxy cz.
  Hypothesis Fx : fits sx cxy.
  Hypothesis Fy : fits sy cxy.
  Hypothesis Fz : fits sz cz.
  Variable nz : Z.
  Hypothesis Hz : sz = IZR nz * cz.
  Let g := grid_of sx sy sz cxy cz.

  Lemma built_cells : 0 < cz /\ 0 < cxy /\ cz <= cxy /\ g_cell_xy g = cxy /\ g_cell_z g = cz.
  Proof. destruct Hs as (A & B & _). repeat split; auto; lra. Qed.
  Lemma built_halves : (1 <= g_half_x g)%Z /\ (1 <= g_half_y g)%Z /\ (1 <= g_half_z g)%Z /\
    (2 * g_half_x g + 1 <= 2147483647)%Z /\ (2 * g_half_y g + 1 <= 2147483647)%Z.
  Proof.
    destruct built_cells as (A & B & C & _). destruct Hs as (_ & _ & D & E & F).
    split; [apply ratio_ge_1; auto|]. split; [apply ratio_ge_1; auto|].
    split; [apply ratio_ge_1; auto|]. split; [exact Fx|exact Fy].
  Qed.
  Lemma built_half_z : g_half_z g = nz.
  Proof.
    destruct built_cells as (A & _). unfold g, grid_of; cbn [g_half_z].
    replace (sz / cz) with (IZR nz) by (rewrite Hz; field; lra). apply zround_IZR.
  Qed.

  (** The centre of a cell is within half a cell of the cell of the geometry. *)
  Lemma centre_near : forall size v i, v = - size + IZR i * cxy ->
    Rabs (v - (IZR i - IZR (zround (size / cxy))) * cxy) <= cxy / 2.
  Proof.
    intros size v i ->. destruct built_cells as (_ & C & _).
    destruct (zround_spec (size / cxy)) as [L U].
    apply (Rmult_le_compat_r cxy) in L; [|lra]. apply (Rmult_le_compat_r cxy) in U; [|lra].
    replace (size / cxy * cxy) with size in * by (field; lra).
    apply Rabs_le. lra.
  Qed.

  (** ** Levels *)
  Variable t czt : Z.
  Hypothesis Ht : (0 < t)%Z.
  Hypothesis Hc : metres t czt = cz.

  Lemma tick_cell : (0 < czt)%Z.
  Proof.
    destruct built_cells as (A & _). unfold metres in Hc. apply IZR_lt in Ht.
    apply lt_IZR. apply (Rmult_lt_reg_r (/ IZR t)); [apply Rinv_0_lt_compat; auto|].
    unfold Rdiv in Hc. rewrite Hc. lra.
  Qed.
  Lemma metres_level : forall k, metres t (czt * (k + 1 - g_half_z g)) =
    (IZR k + 1 - IZR (g_half_z g)) * cz.
  Proof.
    intros k. rewrite <- Hc. unfold metres. rewrite mult_IZR, minus_IZR, plus_IZR. unfold Rdiv. ring.
  Qed.
  (** The levels of the soil half are those of the constructor. *)
  Lemma whole_levels : forall k, (0 <= k <= 2 * g_half_z g)%Z ->
    metres t (vect_z (wgrid t g czt) k) = nth (Z.to_nat k) (g_vect_z g) 0.
  Proof.
    intros k K. destruct (grid_of_spec _ _ _ _ _ Hs) as (_ & _ & _ & _ & _ & _ & V). fold g in V.
    rewrite (V k K). cbn [wgrid vect_z]. rewrite metres_level, built_half_z, Hz. ring.
  Qed.
  Lemma whole_grid_ok : grid_ok (wgrid t g czt).
  Proof.
    destruct built_halves as (X & Y & _). pose proof tick_cell.
    unfold grid_ok; cbn [wgrid half_x half_y half_z cell_z vect_z]. repeat split; auto.
  Qed.

  (** ** Poses *)
  Variable rho : R.
  Hypothesis R0 : 0 <= rho.
  Variable to_ticks : R -> Z.
  Variable b : rbody.
  Variable raster : rvec -> rquat -> outcome (area * list (list cell3)).
  Variable buf : Z.
  Hypothesis Hr : forall pos ori, pose_inside g rho (pos, ori) ->
    exists v n, good_raster g buf rho pos v n (raster pos ori).

  Lemma whole_geom_ok :
    geom_ok (wgrid t g czt) (whole t to_ticks g b raster) (wlegal g rho) (wnear g rho).
  Proof.
    destruct built_cells as (C1 & C2 & C3 & C4 & C5).
    destruct built_halves as (X & Y & Z & IX & IY).
    destruct (grid_of_spec _ _ _ _ _ Hs) as (_ & _ & _ & _ & Vx & Vy & _). fold g in Vx, Vy.
    split.
    - intros [[pos ori]|] L; [|destruct L].
      destruct (Hr pos ori L) as (v & n & a & walls & E & _ & A1 & A2 & A3 & A4 & W).
      exists a, walls. split; [exact E|]. split.
      + unfold raster_ok, within_grid. cbn [wgrid half_x half_y half_z].
        split; [auto|]. split; [intros w Hw; apply (W w Hw)|].
        intros w i j k Hw H. destruct (W w Hw) as (_ & Q). destruct (Q i j k H) as (_ & Q1 & Q2 & _).
        auto.
      + intros w i j k Hw H. destruct (W w Hw) as (_ & Q).
        destruct (Q i j k H) as (_ & Q1 & Q2 & QX & QY & QZ & _).
        destruct L as (Lo & _). cbn [whole g_frame]. unfold wframe, wnear.
        rewrite <- (place_near pos ori) by auto.
        change (rplace pos ori) with
          (rplace (pos_ (at_pose b (Some (pos, ori)))) (ori_ (at_pose b (Some (pos, ori))))).
        rewrite frame_place by exact Lo. cbn [wgrid vect_z]. rewrite metres_level.
        unfold vdist. rewrite C4. rewrite C4 in QX, QY. rewrite C5 in QZ.
        assert (J : (0 <= i <= 2 * g_half_x g)%Z /\ (0 <= j <= 2 * g_half_y g)%Z).
        { unfold in_area in Q1. lia. }
        assert (D : Rabs (at_ (K := FltR) (g_vect_x g) i - (IZR i - IZR (g_half_x g)) * cxy) <= cxy / 2)
          by (apply centre_near; apply Vx; lia).
        assert (D' : Rabs (at_ (K := FltR) (g_vect_y g) j - (IZR j - IZR (g_half_y g)) * cxy) <= cxy / 2)
          by (apply centre_near; apply Vy; lia).
        apply Rabs_bound in D. apply Rabs_bound in D'. apply Rabs_bound in QX. apply Rabs_bound in QY.
        apply Rabs_bound in QZ.
        apply vlen_box; [lra| | |]; cbn [vsub vx vy vz]; apply Rabs_le; lra.
    - intros p p' x L L' N. destruct p' as [[pos' ori']|]; [|destruct L'].
      destruct L' as (Lo & LX & LY & _).
      cbn [whole g_reloc]. unfold wreloc, move_cell.
      assert (P : vdist (rplace pos' ori' x) pos' <= 7 / 4 * (rho + 2 * g_cell_xy g))
        by (rewrite place_near by auto; exact N).
      apply dist_box in P. destruct P as (PX & PY & _).
      unfold ball_lo, ball_hi in PX, PY; cbn [vx vy] in PX, PY.
      destruct (index_inside (g_half_x g) (g_cell_xy g) (vx (rplace pos' ori' x))) as (i & Ei & Bi);
        [rewrite C4; auto|auto|auto|exact (axis_reloc _ _ _ _ _ LX PX)|].
      destruct (index_inside (g_half_y g) (g_cell_xy g) (vy (rplace pos' ori' x))) as (j & Ej & Bj);
        [rewrite C4; auto|auto|auto|exact (axis_reloc _ _ _ _ _ LY PY)|].
      rewrite Ei, Ej. cbn [bind]. eexists. split; [reflexivity|].
      cbn [r_i r_j m_i m_j wgrid half_x half_y]. auto.
  Qed.
End Built.
