(** The rasterised body of a pose inside the grid, in exact arithmetic. *)
From Coq Require Import Reals ZArith List Bool Lra Lia Psatz.
From Verif Require Import Outcome Base Flt FltR FltRFacts State ModelTypes ModelGeometry
  ModelBodyPos ModelRaster SpecGeo GeoProofs PoseProofs LineProofs LineCells InnerProofs
  SurfaceProofs RasterProofs.
Import ListNotations.
Open Scope R_scope.

(** Sizes of a grid whose cells can be counted with an int. *)
Definition grid_fits (g : rgrid) : Prop :=
  0 < g_cell_xy g /\ 0 < g_cell_z g /\
  (0 <= g_half_x g)%Z /\ (0 <= g_half_y g)%Z /\ (0 <= g_half_z g)%Z /\
  (4 * ((2 * g_half_x g + 2) * (2 * g_half_y g + 2)) <= 2147483647)%Z /\
  (2 * g_half_z g <= 2147483646)%Z.
Definition grid_fuel (g : rgrid) : Z := (2 * g_half_x g + 2 * g_half_y g + 2 * g_half_z g + 3)%Z.

(** Position [p], with [rho] metres around it, at least two cells away from the first
    cells and one from the last ones. *)
Definition ball_inside (g : rgrid) (rho : R) (p : rvec) : Prop :=
  2 <= (vx p - rho) / g_cell_xy g + IZR (g_half_x g) /\
  (vx p + rho) / g_cell_xy g + IZR (g_half_x g) <= 2 * IZR (g_half_x g) - 1 /\
  2 <= (vy p - rho) / g_cell_xy g + IZR (g_half_y g) /\
  (vy p + rho) / g_cell_xy g + IZR (g_half_y g) <= 2 * IZR (g_half_y g) - 1 /\
  2 <= (vz p - rho) / g_cell_z g + IZR (g_half_z g) /\
  (vz p + rho) / g_cell_z g + IZR (g_half_z g) <= 2 * IZR (g_half_z g) - 1.

(** The box around a ball. *)
Definition ball_lo (r : R) (p : rvec) : rvec := mkVec (vx p - r) (vy p - r) (vz p - r).
Definition ball_hi (r : R) (p : rvec) : rvec := mkVec (vx p + r) (vy p + r) (vz p + r).

Lemma axis_le_vlen : forall v, Rabs (vx v) <= vlen v /\ Rabs (vy v) <= vlen v /\ Rabs (vz v) <= vlen v.
Proof.
  intros [x y z]. unfold vlen, dot; cbn [vx vy vz].
  rewrite <- !sqrt_Rsqr_abs. unfold Rsqr.
  split; [|split]; apply sqrt_le_1_alt; nra.
Qed.
Lemma dist_box : forall p q r, vdist p q <= r -> box (ball_lo r q) (ball_hi r q) p.
Proof.
  intros p q r H. unfold vdist in H. destruct (axis_le_vlen (vsub p q)) as (A & B & C).
  unfold vsub in *; cbn [vx vy vz] in *. unfold box, ball_lo, ball_hi; cbn [vx vy vz].
  apply Rabs_bound in A. apply Rabs_bound in B. apply Rabs_bound in C.
  repeat split; lra.
Qed.

Definition radius_le (b : rbody) (r : R) : Prop :=
  forall p, In p (corner_list (own_corners b)) -> vlen p <= r.

Lemma corners_in_ball : forall (b : rbody) pos ori r, ori <> qzero -> radius_le b r ->
  corners_in (ball_lo r pos) (ball_hi r pos) (rcorner_pos pos ori b).
Proof.
  intros b pos ori r H R p Hp. rewrite corners_placed in Hp by auto.
  rewrite corner_list_map in Hp. apply in_map_iff in Hp. destruct Hp as (q & <- & Hq).
  apply dist_box. rewrite place_near by auto. apply R; auto.
Qed.

Lemma vlen_triangle : forall u v, vlen (vadd u v) <= vlen u + vlen v.
Proof.
  intros u v. pose proof (vlen_nonneg u). pose proof (vlen_nonneg v). pose proof (vlen_nonneg (vadd u v)).
  apply Rsqr_incr_0; [|auto|lra]. unfold Rsqr. rewrite vlen_sqr.
  pose proof (vlen_sqr u) as U. pose proof (vlen_sqr v) as V.
  assert (C : dot u v <= vlen u * vlen v).
  { destruct (Rle_dec (dot u v) 0); [nra|].
    apply Rsqr_incr_0; [|lra|nra]. unfold Rsqr.
    replace (vlen u * vlen v * (vlen u * vlen v)) with ((vlen u * vlen u) * (vlen v * vlen v)) by ring.
    rewrite U, V. destruct u as [a b c], v as [d e f]. unfold dot; cbn [vx vy vz].
    pose proof (Rle_0_sqr (a * e - b * d)). pose proof (Rle_0_sqr (a * f - c * d)).
    pose proof (Rle_0_sqr (b * f - c * e)). unfold Rsqr in *. nra. }
  replace (dot (vadd u v) (vadd u v)) with (dot u u + 2 * dot u v + dot v v)
    by (destruct u, v; vecs; ring).
  nra.
Qed.
Lemma vlen_vscale : forall k v, 0 <= k -> vlen (vscale k v) = k * vlen v.
Proof.
  intros k v H. unfold vlen. rewrite dot_vscale, sqrt_mult_alt by nra.
  rewrite sqrt_square by auto. reflexivity.
Qed.

(** A rotated body: distance from the corners of the back to the origin. *)
Lemma normal_len : forall a b c, vlen (normal a b c) <= 1.
Proof.
  intros a b c. rewrite normal_form. set (v := cross (vsub b a) (vsub c a)).
  destruct (Req_dec (vlen v) 0) as [E|E].
  - rewrite E, Rinv_0. unfold vlen, vscale, dot; cbn [vx vy vz].
    replace (0 * vx v * (0 * vx v) + 0 * vy v * (0 * vy v) + 0 * vz v * (0 * vz v)) with 0 by ring.
    rewrite sqrt_0. lra.
  - pose proof (vlen_nonneg v). rewrite vlen_vscale by (left; apply Rinv_0_lt_compat; lra).
    rewrite Rinv_l by auto. lra.
Qed.
Lemma back_in_ball : forall (g : rgrid) (b : rbody) pos ori r, ori <> qzero -> 0 < g_cell_xy g ->
  radius_le b r ->
  corners_in (ball_lo (r + g_cell_xy g) pos) (ball_hi (r + g_cell_xy g) pos)
    (back_corners g (rcorner_pos pos ori b)).
Proof.
  intros g b pos ori r H Hg R p Hp. unfold back_corners in Hp.
  rewrite corner_list_map in Hp. apply in_map_iff in Hp. destruct Hp as (q & <- & Hq).
  rewrite corners_placed in Hq by auto. rewrite corner_list_map in Hq. apply in_map_iff in Hq.
  destruct Hq as (q0 & <- & Hq0). apply dist_box.
  match goal with |- context [vscale _ ?x] => set (n := x) end.
  assert (N : vlen n <= 1) by apply normal_len. clearbody n.
  pose proof (R q0 Hq0) as Q. pose proof (place_near pos ori q0 H) as P. unfold vdist in *.
  replace (vsub (vadd (rplace pos ori q0) (vscale (g_cell_xy g) n)) pos)
    with (vadd (vsub (rplace pos ori q0) pos) (vscale (g_cell_xy g) n))
    by (destruct (rplace pos ori q0), n, pos; apply vec_eq; vecs; ring).
  eapply Rle_trans; [apply vlen_triangle|]. rewrite P, vlen_vscale by lra. nra.
Qed.

(** What is needed to rasterise a body of corners within [r] of its position, when
    the ball of radius [rho] is inside the grid. *)
Section Inside.
  Variable g : rgrid.
  Variable tol : R.
  Variables (r rho : R).
  Variable pos : rvec.
  Hypothesis Hg : grid_fits g.
  Hypothesis Htol : 0 <= tol <= / 3.
  Hypothesis Hr : 0 <= r.
  Hypothesis Hrho : (1 + 18 * tol) * r <= rho.
  Hypothesis Hin : ball_inside g rho pos.
  Let lo := ball_lo r pos.
  Let hi := ball_hi r pos.
  Let m := 9 * tol * (vz hi - vz lo).
  Let lo' := stretch (- m) lo.
  Let hi' := stretch m hi.

  Lemma m_eq : m = 18 * tol * r.
  Proof. unfold m, lo, hi, ball_lo, ball_hi; cbn [vz]. ring. Qed.
  Lemma rho_ge : r <= rho.
  Proof. clear Hin. pose proof (proj1 Htol). nra. Qed.

  Lemma inside_box : box (ball_lo rho pos) (ball_hi rho pos) lo' /\
                     box (ball_lo rho pos) (ball_hi rho pos) hi'.
  Proof.
    clear Hin. pose proof m_eq. pose proof rho_ge. assert (0 <= tol * r) by (apply Rmult_le_pos; lra).
    unfold lo', hi', lo, hi, stretch, ball_lo, ball_hi, box; cbn [vx vy vz].
    repeat split; lra.
  Qed.
  Definition gx : R := IZR (g_half_x g).
  Definition gy : R := IZR (g_half_y g).
  Definition gz : R := IZR (g_half_z g).
  Definition in_cells (p : rvec) : Prop :=
    2 <= vx p <= 2 * gx - 1 /\ 2 <= vy p <= 2 * gy - 1 /\ 1 <= vz p <= 2 * gz - 2.
  Lemma ball_in_cells : in_cells (ind g (ball_lo rho pos)) /\ in_cells (ind g (ball_hi rho pos)).
  Proof.
    destruct Hg as (Cx & Cz & _). destruct Hin as (A1 & A2 & A3 & A4 & A5 & A6).
    pose proof rho_ge.
    assert (B : box (ind g (ball_lo rho pos)) (ind g (ball_hi rho pos)) (ind g pos)).
    { apply ind_box; auto. unfold box, ball_lo, ball_hi; cbn [vx vy vz]; repeat split; lra. }
    destruct B as (B1 & B2 & B3).
    unfold in_cells, ind, ball_lo, ball_hi, gx, gy, gz in *; cbn [vx vy vz] in *.
    repeat split; lra.
  Qed.
  Lemma lohi_in_cells : in_cells (ind g lo') /\ in_cells (ind g hi').
  Proof.
    destruct Hg as (Cx & Cz & _). destruct ball_in_cells as [(A1 & A2 & A3) (B1 & B2 & B3)].
    destruct inside_box as [L H]. apply (ind_box g) in L; auto. apply (ind_box g) in H; auto.
    destruct L as (L1 & L2 & L3), H as (H1 & H2 & H3). unfold in_cells. repeat split; lra.
  Qed.
  Lemma half_ints : 0 <= gx /\ 0 <= gy /\ 0 <= gz /\
    4 * ((2 * gx + 2) * (2 * gy + 2)) <= 2147483647 /\ 2 * gz <= 2147483646 /\
    2 * gx + 2 <= 2147483646 /\ 2 * gy + 2 <= 2147483646.
  Proof.
    destruct Hg as (_ & _ & Hx & Hy & Hz & A & Z). unfold gx, gy, gz.
    assert (X : (2 * g_half_x g + 2 <= 2147483646)%Z) by nia.
    assert (Y : (2 * g_half_y g + 2 <= 2147483646)%Z) by nia.
    apply IZR_le in Hx, Hy, Hz, A, Z, X, Y.
    rewrite ?mult_IZR, ?plus_IZR, ?mult_IZR in *. lra.
  Qed.
  Lemma in_cells_int : forall p, in_cells p -> int_vec p.
  Proof.
    intros p (A & B & C). pose proof half_ints as (X & Y & Z & _ & Z' & X' & Y').
    unfold int_vec, int_range. repeat split; lra.
  Qed.
  Lemma lohi_area : area_int (ind g lo') (ind g hi').
  Proof.
    destruct lohi_in_cells as [(A1 & A2 & A3) (B1 & B2 & B3)].
    pose proof half_ints as (X & Y & Z & A & Z' & X' & Y').
    unfold area_int. eapply Rle_trans; [|exact A].
    apply Rmult_le_compat_l; [lra|].
    assert (W : vx (ind g lo') <= vx (ind g hi') /\ vy (ind g lo') <= vy (ind g hi')).
    { destruct Hg as (Cx & Cz & _).
      unfold ind, lo', hi', lo, hi, stretch, ball_lo, ball_hi; cbn [vx vy vz].
      pose proof (Rinv_0_lt_compat _ Cx). unfold Rdiv. split; nra. }
    apply Rmult_le_compat; lra.
  Qed.
  Lemma lohi_fuel : forall fuel, (grid_fuel g <= Z.of_nat fuel)%Z ->
    (box_fuel (ind g lo') (ind g hi') <= Z.of_nat fuel)%Z.
  Proof.
    intros fuel F. eapply Z.le_trans; [|exact F]. unfold box_fuel, grid_fuel.
    destruct lohi_in_cells as [(A1 & A2 & A3) (B1 & B2 & B3)]. unfold gx, gy, gz in *.
    assert (C : forall x n, x <= 2 * IZR n -> (zceil x <= 2 * n)%Z).
    { intros x n H. rewrite <- (zceil_IZR (2 * n)). apply zceil_mono. rewrite mult_IZR. lra. }
    pose proof (C (vx (ind g hi') - vx (ind g lo')) (g_half_x g) ltac:(lra)).
    pose proof (C (vy (ind g hi') - vy (ind g lo')) (g_half_y g) ltac:(lra)).
    pose proof (C (vz (ind g hi') - vz (ind g lo')) (g_half_z g) ltac:(lra)). lia.
  Qed.
  Lemma halves_int : (0 <= 2 * g_half_x g <= 2147483647)%Z /\ (0 <= 2 * g_half_y g <= 2147483647)%Z.
  Proof. destruct Hg as (_ & _ & Hx & Hy & Hz & A & Z). nia. Qed.

  (** Consequences for the cells of the walls. *)
  Variable buf : Z.
  Hypothesis Hbuf : (2 <= buf)%Z.
  Variables (v : rvec) (l : list rvec).
  Hypothesis Hv : forall p, In p (v :: l) -> box lo hi p.
  Variable walls : list (list cell3).
  Hypothesis Hw : walls_in g tol lo hi v l walls.

  Lemma vertices_cells : forall p, In p (v :: l) ->
    2 <= vx (ind g p) <= 2 * IZR (g_half_x g) - 1 /\ 2 <= vy (ind g p) <= 2 * IZR (g_half_y g) - 1.
  Proof.
    intros p Hp. destruct ball_in_cells as [(A1 & A2 & A3) (B1 & B2 & B3)].
    destruct Hg as (Cx & Cz & _). pose proof rho_ge.
    assert (B : box (ball_lo rho pos) (ball_hi rho pos) p).
    { destruct (Hv p Hp) as (P1 & P2 & P3). unfold lo, hi, ball_lo, ball_hi, box in *; cbn [vx vy vz] in *.
      repeat split; lra. }
    apply (ind_box g) in B; auto. destruct B as (X & Y & _). unfold gx, gy in *. lra.
  Qed.

  Lemma cells_inside : forall w i j k, In w walls -> In (i, j, k) w ->
    in_area (area_of g buf v l) i j /\ (0 <= k <= 2 * g_half_z g)%Z /\
    Rabs ((IZR i - IZR (g_half_x g)) * g_cell_xy g - vx pos) <= rho + g_cell_xy g /\
    Rabs ((IZR j - IZR (g_half_y g)) * g_cell_xy g - vy pos) <= rho + g_cell_xy g /\
    Rabs ((IZR k + 1 - IZR (g_half_z g)) * g_cell_z g - vz pos) <= rho + g_cell_z g.
  Proof.
    intros w i j k Iw Ic. destruct (Hw w Iw) as [_ B]. specialize (B _ Ic).
    split.
    { exact (near_area g buf v l _ _ (i, j, k) Hbuf vertices_cells B). }
    destruct (low_box v l lo hi Hv) as [(La & Lb & Lc) (Ha & Hb & Hc)].
    destruct inside_box as [(I1 & I2 & I3) (J1 & J2 & J3)].
    pose proof rho_ge.
    destruct Hg as (Cx & Cz & _).
    destruct B as (Bx & By & Bz). destruct ball_in_cells as [(A1 & A2 & A3) (B1 & B2 & B3)].
    unfold gz in *.
    set (L := mkVec (vx (low v l)) (vy (low v l)) (vz (stretch (- (9 * tol * (vz hi - vz lo))) lo))) in *.
    set (H' := mkVec (vx (high v l)) (vy (high v l)) (vz (stretch (9 * tol * (vz hi - vz lo)) hi))) in *.
    assert (QL : box (ball_lo rho pos) (ball_hi rho pos) L).
    { unfold box, L, lo, hi, ball_lo, ball_hi in *; cbn [vx vy vz] in *.
      change (9 * tol * (vz pos + r - (vz pos - r))) with m.
      unfold lo' in *. cbn [vx vy vz stretch] in *. repeat split; lra. }
    assert (QH : box (ball_lo rho pos) (ball_hi rho pos) H').
    { unfold box, H', lo, hi, ball_lo, ball_hi in *; cbn [vx vy vz] in *.
      change (9 * tol * (vz pos + r - (vz pos - r))) with m.
      unfold hi' in *. cbn [vx vy vz stretch] in *. repeat split; lra. }
    apply (ind_box g) in QL; auto. apply (ind_box g) in QH; auto.
    destruct QL as (QL1 & QL2 & QL3), QH as (QH1 & QH2 & QH3).
    assert (X : vx (ind g (ball_lo rho pos)) - 1 < IZR i < vx (ind g (ball_hi rho pos)) + 1) by lra.
    assert (Y : vy (ind g (ball_lo rho pos)) - 1 < IZR j < vy (ind g (ball_hi rho pos)) + 1) by lra.
    assert (Z : vz (ind g (ball_lo rho pos)) - 1 < IZR k < vz (ind g (ball_hi rho pos)) + 1) by lra.
    split.
    { assert (0 < k)%Z by (apply lt_IZR; lra).
      assert (k < 2 * g_half_z g)%Z by (apply lt_IZR; rewrite mult_IZR; lra). lia. }
    revert X Y Z. clear - Cx Cz. unfold ind, ball_lo, ball_hi; cbn [vx vy vz].
    assert (E : forall a c n h, 0 < c -> (a - rho) / c + h - 1 < n < (a + rho) / c + h + 1 ->
      Rabs ((n - h) * c - a) <= rho + c).
    { intros a c n h C [A B]. 
      assert (E1 : (a - rho) / c * c = a - rho) by (field; lra).
      assert (E2 : (a + rho) / c * c = a + rho) by (field; lra).
      apply Rabs_le. split; nra. }
    intros X Y Z. split; [|split]; apply E; auto; lra.
  Qed.

  Lemma cells_room : forall w i j k i' j', In w walls -> In (i, j, k) w ->
    (1 <= i' < 2 * g_half_x g)%Z -> (1 <= j' < 2 * g_half_y g)%Z ->
    (Z.abs (i' - i) <= buf - 2)%Z -> (Z.abs (j' - j) <= buf - 2)%Z ->
    in_area (area_of g buf v l) i' j'.
  Proof.
    intros w i j k i' j' Iw Ic Hi Hj Di Dj. destruct (Hw w Iw) as [_ B]. specialize (B _ Ic).
    exact (near_area_room g buf v l _ _ (i, j, k) i' j' B Hi Hj Di Dj).
  Qed.

  Lemma area_within : (1 <= x_lo (area_of g buf v l))%Z /\ (x_hi (area_of g buf v l) <= 2 * g_half_x g)%Z /\
    (1 <= y_lo (area_of g buf v l))%Z /\ (y_hi (area_of g buf v l) <= 2 * g_half_y g)%Z.
  Proof. unfold area_of, clip_lo, clip_hi; cbn [x_lo x_hi y_lo y_hi]. lia. Qed.
End Inside.
