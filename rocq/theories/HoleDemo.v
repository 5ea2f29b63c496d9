(** A concrete bucket for C52: vertical sides, the base 7 cells by 5. *)
From Coq Require Import Reals ZArith List Bool Lra Lia Psatz.
From Verif Require Import Outcome Base Flt FltR FltRFacts State ModelTypes ModelGeometry
  ModelBodyPos ModelRaster SpecGeo GeoProofs PoseProofs LineProofs LineCells InnerProofs
  SurfaceProofs RasterProofs InsideProofs GeoClaims SpecHole HolePlane HoleProofs HoleBody.
Import ListNotations.
Open Scope R_scope.

Definition hole_pos : rvec := mkVec (/ 30) (/ 30) (/ 30).
Definition hole_ori : rquat := mkQuat 1 0 0 0.
Lemma hole_ori_nz : hole_ori <> qzero.
Proof. intros E. apply (f_equal qw) in E. cbn in E. lra. Qed.
Lemma rot_one : forall v, rot hole_ori v = v.
Proof.
  intros v. rewrite rot_turn. destruct v as [a b c]. apply vec_eq; unfold turn, qlen2, vscale, hole_ori, vadd, cross, dot, qv;
    cbn [vx vy vz qw qx qy qz]; field.
Qed.

Lemma hole_corners : rcorner_pos hole_pos hole_ori demo_b =
  @mkCorners FltR
    (mkVec (/ 30) (/ 30 - / 4) (/ 30)) (mkVec (/ 30) (/ 30 + / 4) (/ 30))
    (mkVec (/ 30) (/ 30 - / 4) (/ 30 - / 2)) (mkVec (/ 30) (/ 30 + / 4) (/ 30 - / 2))
    (mkVec (/ 30 + 7 / 10) (/ 30 - / 4) (/ 30 - / 2)) (mkVec (/ 30 + 7 / 10) (/ 30 + / 4) (/ 30 - / 2)).
Proof.
  rewrite corners_placed by exact hole_ori_nz. unfold map_corners, own_corners. rewrite demo_normal.
  cbn [j_r j_l b_r b_l t_r t_l]. rewrite !place_eq, !rot_one.
  f_equal; apply vec_eq; unfold vadd, vsub, vscale, hole_pos, demo_b;
    cbn [vx vy vz j_init b_init t_init width]; lra.
Qed.

Definition hole_moved : rcorners := @mkCorners FltR
  (mkVec (100021 / 3000000) (-129997 / 600000) (9997 / 300000))
  (mkVec (10002100021 / 300000000000) (16999700003 / 60000000000) (999699997 / 30000000000))
  (mkVec (10002100021 / 300000000000) (-12999699997 / 60000000000) (-13999850003 / 30000000000))
  (mkVec (500105002100021 / 15000000000000000) (849985000000003 / 3000000000000000)
         (-699992500075003 / 1500000000000000))
  (mkVec (21999580004200021 / 30000000000000000) (-1299969999399997 / 6000000000000000)
         (-1399985000150003 / 3000000000000000))
  (mkVec (2199958000000010500063 / 3000000000000000000000) (169996999970000900009 / 600000000000000000000)
         (-139998500000000600009 / 300000000000000000000)).
Lemma hole_moved_eq : nudge_corners (K := FltR) demo_tol (rcorner_pos hole_pos hole_ori demo_b) = hole_moved.
Proof.
  rewrite hole_corners. unfold nudge_corners, hole_moved, nudge, nudge1, demo_tol.
  cbn [j_r j_l b_r b_l t_r t_l vx vy vz]. rred. f_equal; apply vec_eq; cbn [vx vy vz]; lra.
Qed.

(** Proofs on numbers. *)
Lemma not_half : forall x n, IZR n - / 2 < x < IZR n + / 2 -> ~ half_integer x.
Proof.
  intros x n H [k ->]. assert (k < n)%Z by (apply lt_IZR; lra).
  assert (n < k + 1)%Z by (apply lt_IZR; rewrite plus_IZR; lra). lia.
Qed.
Lemma not_integer : forall x n, IZR n < x < IZR n + 1 -> ~ integer x.
Proof.
  intros x n H [k ->]. assert (n < k)%Z by (apply lt_IZR; lra).
  assert (k < n + 1)%Z by (apply lt_IZR; rewrite plus_IZR; lra). lia.
Qed.
Lemma room_wide : forall tol m a s, 0 < s -> a < (1 - 2 * tol) * s -> room tol m (a / s).
Proof.
  intros tol m a s S H. left. apply (Rmult_lt_reg_r s); [exact S|].
  unfold Rdiv. rewrite Rmult_assoc, Rinv_l, Rmult_1_r; lra.
Qed.
Lemma narrow : forall m a s, 0 < s -> s < (1 - 2 * m) * a -> 1 < (1 - 2 * m) * (a / s).
Proof.
  intros m a s S H. apply (Rmult_lt_reg_r s); [exact S|].
  replace ((1 - 2 * m) * (a / s) * s) with ((1 - 2 * m) * a) by (field; lra). lra.
Qed.
Lemma room_narrow : forall tol m a s, 0 < s -> s < (1 - 2 * m) * a -> room tol m (a / s).
Proof. intros. right. apply narrow; auto. Qed.

Lemma hole_fair : forall p x y z, ind demo_g p = mkVec x y z ->
  forall n k l, IZR n - / 2 < x < IZR n + / 2 -> IZR k - / 2 < y < IZR k + / 2 -> IZR l < z < IZR l + 1 ->
  (0 <= n <= 80)%Z -> (0 <= k <= 80)%Z -> (0 <= l <= 80)%Z -> fair demo_g p.
Proof.
  intros p x y z E n k l X Y Z N K L. unfold fair. rewrite E.
  assert (B : forall i, (0 <= i <= 80)%Z -> 0 <= IZR i <= 80) by (intros i I; split; apply IZR_le; lia).
  apply B in N, K, L. split.
  - unfold int_vec, int_range. cbn [vx vy vz]. lra.
  - unfold LineCells.off_border. cbn [vx vy vz].
    split; [|split]; [apply (not_half _ n)|apply (not_half _ k)|apply (not_integer _ l)]; auto.
Qed.

Lemma hole_ind : forall p, ind demo_g p = mkVec (vx p * 10 + 40) (vy p * 10 + 40) (vz p * 10 + 39).
Proof.
  intros p. unfold ind. destruct demo_half as (-> & -> & ->). destruct demo_cells as [-> ->].
  apply vec_eq; cbn [vx vy vz]; lra.
Qed.
Lemma hole_side : forall p q, side_x demo_g p q = 10 * (vx q - vx p) /\ side_y demo_g p q = 10 * (vy q - vy p).
Proof. intros p q. unfold side_x, side_y. destruct demo_cells as [-> _]. split; lra. Qed.

Lemma hole_all_fair : forall p, In p (corner_list hole_moved) -> fair demo_g p.
Proof.
  unfold corner_list, hole_moved. cbn [j_r j_l b_r b_l t_r t_l In].
  intros p [<-|[<-|[<-|[<-|[<-|[<-|[]]]]]]]; eapply hole_fair; try (apply hole_ind); cbn [vx vy vz].
  all: try (instantiate (1 := 40%Z); lra); try (instantiate (1 := 38%Z); lra);
       try (instantiate (1 := 43%Z); lra); try (instantiate (1 := 47%Z); lra);
       try (instantiate (1 := 39%Z); lra); try (instantiate (1 := 34%Z); lra); lia.
Qed.

Ltac sides := unfold rectangle_shape, triangle_shape, span;
  repeat match goal with |- context [side_x demo_g ?p ?q] => rewrite (proj1 (hole_side p q)) end;
  repeat match goal with |- context [side_y demo_g ?p ?q] => rewrite (proj2 (hole_side p q)) end;
  unfold hole_moved; cbn [j_r j_l b_r b_l t_r t_l vx vy vz].
Ltac abs_signs := repeat match goal with
  | |- context [Rabs ?z] => first [rewrite (Rabs_pos_eq z) by lra | rewrite (Rabs_left z) by lra] end.

Definition hole_m : R := / 1000.
Lemma hole_base : rectangle_shape demo_g demo_tol hole_m (b_r hole_moved) (b_l hole_moved) (t_r hole_moved).
Proof.
  right. sides. abs_signs. unfold hole_m, demo_tol. split; [apply Rgt_not_eq; lra|]. split; [lra|].
  split; (apply room_wide; lra).
Qed.
Lemma hole_back : rectangle_shape demo_g demo_tol hole_m (b_r hole_moved) (b_l hole_moved) (j_r hole_moved).
Proof.
  right. sides. abs_signs. unfold hole_m, demo_tol. split; [apply Rgt_not_eq; lra|]. split; [lra|].
  split; [apply room_wide|apply room_narrow]; lra.
Qed.
Lemma hole_right : triangle_shape demo_g demo_tol hole_m (j_r hole_moved) (b_r hole_moved) (t_r hole_moved).
Proof.
  right. left. split.
  - sides. abs_signs. apply Rgt_not_eq; lra.
  - exists (t_r hole_moved), (j_r hole_moved). split; [cbn [In]; auto|].
    sides. abs_signs. unfold hole_m. apply narrow; lra.
Qed.
Lemma hole_left : triangle_shape demo_g demo_tol hole_m (j_l hole_moved) (b_l hole_moved) (t_l hole_moved).
Proof.
  right. left. split.
  - sides. abs_signs. apply Rgt_not_eq; lra.
  - exists (t_l hole_moved), (j_l hole_moved). split; [cbn [In]; auto|].
    sides. abs_signs. unfold hole_m. apply narrow; lra.
Qed.

(** The blade: its back is the front, one cell further. *)
Lemma hole_normal : normal (mkVec (/ 30) (/ 30 - / 4) (/ 30)) (mkVec (/ 30) (/ 30 + / 4) (/ 30))
    (mkVec (/ 30) (/ 30 + / 4) (/ 30 - / 2)) = mkVec (-1) 0 0.
Proof.
  rewrite normal_form.
  match goal with |- context [vlen ?c] => replace c with (mkVec (- / 4) 0 0)
    by (apply vec_eq; unfold cross, vsub; cbn [vx vy vz]; lra) end.
  assert (L : vlen (mkVec (- / 4) 0 0) = / 4).
  { unfold vlen, dot; cbn [vx vy vz].
    replace (- / 4 * - / 4 + 0 * 0 + 0 * 0) with ((/ 4) * (/ 4)) by ring. apply sqrt_square; lra. }
  rewrite L. apply vec_eq; cbn [vscale vx vy vz]; lra.
Qed.
Definition shifted (p : rvec) : rvec := mkVec (vx p - / 10) (vy p) (vz p).
Definition hole_behind : rcorners := map_corners shifted hole_moved.
Lemma hole_behind_eq :
  nudge_corners (K := FltR) demo_tol (back_corners demo_g (rcorner_pos hole_pos hole_ori demo_b)) = hole_behind.
Proof.
  rewrite hole_corners. unfold back_corners. cbn [j_r j_l b_l]. rewrite hole_normal.
  destruct demo_cells as [-> _]. unfold hole_behind, hole_moved, map_corners, shifted, vadd, vscale.
  cbn [j_r j_l b_r b_l t_r t_l vx vy vz].
  unfold nudge_corners, nudge, nudge1, demo_tol.
  cbn [j_r j_l b_r b_l t_r t_l vx vy vz]. rred. f_equal; apply vec_eq; cbn [vx vy vz]; lra.
Qed.
Lemma hole_behind_fair : forall p, In p (corner_list hole_behind) -> fair demo_g p.
Proof.
  unfold corner_list, hole_behind, map_corners, shifted, hole_moved. cbn [j_r j_l b_r b_l t_r t_l In].
  intros p [<-|[<-|[<-|[<-|[<-|[<-|[]]]]]]]; eapply hole_fair; try (apply hole_ind); cbn [vx vy vz].
  all: try (instantiate (1 := 40%Z); lra); try (instantiate (1 := 38%Z); lra);
       try (instantiate (1 := 43%Z); lra); try (instantiate (1 := 46%Z); lra);
       try (instantiate (1 := 39%Z); lra); try (instantiate (1 := 34%Z); lra); lia.
Qed.
Lemma hole_heel : rectangle_shape demo_g demo_tol hole_m (t_r hole_moved) (t_l hole_moved) (j_r hole_moved).
Proof.
  right. sides. abs_signs. unfold hole_m, demo_tol. split; [apply Rgt_not_eq; lra|]. split; [lra|].
  split; apply room_wide; lra.
Qed.
Lemma shifted_shape : forall a b d, rectangle_shape demo_g demo_tol hole_m a b d ->
  rectangle_shape demo_g demo_tol hole_m (shifted a) (shifted b) (shifted d).
Proof.
  intros a b d. unfold rectangle_shape, span, side_x, side_y, shifted. cbn [vx vy].
  replace (vx b - / 10 - (vx a - / 10)) with (vx b - vx a) by ring.
  replace (vx d - / 10 - (vx a - / 10)) with (vx d - vx a) by ring. exact (fun H => H).
Qed.
Lemma hole_blade_shapes : forall c, c = hole_moved \/ c = hole_behind ->
  rectangle_shape demo_g demo_tol hole_m (b_r c) (b_l c) (j_r c) /\
  rectangle_shape demo_g demo_tol hole_m (t_r c) (t_l c) (j_r c).
Proof.
  intros c [->| ->].
  - exact (conj hole_back hole_heel).
  - exact (conj (shifted_shape _ _ _ hole_back) (shifted_shape _ _ _ hole_heel)).
Qed.

Lemma hole_margin : forall r, 0 <= r <= 2 ->
  tiny + 40 * (demo_tol * demo_tol) * r / g_cell_xy demo_g < hole_m /\ hole_m <= / 100.
Proof. intros r R. destruct demo_cells as [-> _]. unfold tiny, demo_tol, hole_m. split; lra. Qed.
Lemma hole_inside : ball_inside demo_g (3 / 2) hole_pos.
Proof.
  unfold ball_inside. destruct demo_half as (X & Y & Z). rewrite X, Y, Z.
  destruct demo_cells as [-> ->]. cbn [hole_pos vx vy vz]. unfold Rdiv. rewrite Rinv_inv.
  repeat split; lra.
Qed.

Lemma bucket_demo :
  0 < g_cell_xy demo_g /\ 0 <= demo_tol <= / 3 /\ hole_ori <> qzero /\ radius_le demo_b 1 /\
  tiny + 40 * (demo_tol * demo_tol) * 1 / g_cell_xy demo_g < hole_m <= / 100 /\
  let c := nudge_corners (K := FltR) demo_tol (rcorner_pos hole_pos hole_ori demo_b) in
  (forall p, In p (corner_list c) -> fair demo_g p) /\
  rectangle_shape demo_g demo_tol hole_m (b_r c) (b_l c) (t_r c) /\
  rectangle_shape demo_g demo_tol hole_m (b_r c) (b_l c) (j_r c) /\
  triangle_shape demo_g demo_tol hole_m (j_r c) (b_r c) (t_r c) /\
  triangle_shape demo_g demo_tol hole_m (j_l c) (b_l c) (t_l c) /\
  exists ar walls, raster_bucket (K := FltR) demo_g demo_tol 300 4 demo_b hole_pos hole_ori = Ok (ar, walls).
Proof.
  split; [destruct demo_cells as [-> _]; lra|]. split; [unfold demo_tol; lra|].
  split; [exact hole_ori_nz|]. split; [exact demo_radius|]. split; [apply hole_margin; lra|].
  cbv zeta. rewrite hole_moved_eq. split; [exact hole_all_fair|]. split; [exact hole_base|].
  split; [exact hole_back|]. split; [exact hole_right|]. split; [exact hole_left|].
  destruct (bucket_inside demo_g demo_tol 300 4 demo_b hole_pos hole_ori 1 (3 / 2)) as (ar & walls & E & _).
  - exact demo_fits.
  - unfold demo_tol; lra.
  - lia.
  - unfold grid_fuel. destruct demo_half as (-> & -> & ->). lia.
  - exact hole_ori_nz.
  - exact demo_radius.
  - unfold demo_tol; lra.
  - exact hole_inside.
  - eauto.
Qed.
Lemma blade_demo :
  tiny + 40 * (demo_tol * demo_tol) * (1 + g_cell_xy demo_g) / g_cell_xy demo_g < hole_m <= / 100 /\
  let f := nudge_corners (K := FltR) demo_tol (rcorner_pos hole_pos hole_ori demo_b) in
  let b := nudge_corners (K := FltR) demo_tol (back_corners demo_g (rcorner_pos hole_pos hole_ori demo_b)) in
  (forall p, In p (corner_list f ++ corner_list b) -> fair demo_g p) /\
  (forall c, c = f \/ c = b ->
     rectangle_shape demo_g demo_tol hole_m (b_r c) (b_l c) (j_r c) /\
     rectangle_shape demo_g demo_tol hole_m (t_r c) (t_l c) (j_r c)) /\
  exists ar walls, raster_blade (K := FltR) demo_g demo_tol 300 4 demo_b hole_pos hole_ori = Ok (ar, walls).
Proof.
  split; [apply hole_margin; destruct demo_cells as [-> _]; lra|].
  cbv zeta. rewrite hole_moved_eq, hole_behind_eq. split; [|split; [exact hole_blade_shapes|]].
  { intros p P. apply in_app_iff in P. destruct P as [P|P]; [apply hole_all_fair|apply hole_behind_fair]; exact P. }
  destruct (blade_inside demo_g demo_tol 300 4 demo_b hole_pos hole_ori 1 (3 / 2)) as (ar & walls & E & _).
  - exact demo_fits.
  - unfold demo_tol; lra.
  - lia.
  - unfold grid_fuel. destruct demo_half as (-> & -> & ->). lia.
  - exact hole_ori_nz.
  - exact demo_radius.
  - destruct demo_cells as [-> _]. unfold demo_tol; lra.
  - exact hole_inside.
  - eauto.
Qed.

(** A level surface of 10 by 10 cells, and half of it. *)
Definition sq_a : rvec := mkVec (/ 30) (/ 30) (/ 30).
Definition sq_b : rvec := mkVec (31 / 30) (/ 30) (/ 30).
Definition sq_c : rvec := mkVec (31 / 30) (31 / 30) (/ 30).
Definition sq_d : rvec := mkVec (/ 30) (31 / 30) (/ 30).
Lemma sq_fair : forall p, In p [sq_a; sq_b; sq_c; sq_d] -> fair demo_g p.
Proof.
  cbn [In]. intros p [<-|[<-|[<-|[<-|[]]]]]; eapply hole_fair; try (apply hole_ind); cbn [vx vy vz sq_a sq_b sq_c sq_d].
  all: try (instantiate (1 := 40%Z); lra); try (instantiate (1 := 50%Z); lra);
       try (instantiate (1 := 39%Z); lra); lia.
Qed.
Lemma rectangle_demo :
  (forall p, In p [sq_a; sq_b; sq_c; sq_d] -> fair demo_g p) /\
  Rabs (side_x demo_g sq_b sq_c - side_x demo_g sq_a sq_d) <= 0 /\
  Rabs (side_y demo_g sq_b sq_c - side_y demo_g sq_a sq_d) <= 0 /\
  rectangle_shape demo_g demo_tol hole_m sq_a sq_b sq_d /\
  exists w, calc_rectangle_pos (K := FltR) demo_g demo_tol 300 sq_a sq_b sq_c sq_d = Ok w.
Proof.
  split; [exact sq_fair|]. split; [|split; [|split]].
  - rewrite !(proj1 (hole_side _ _)). cbn [vx vy vz sq_a sq_b sq_c sq_d]. rewrite Rabs_pos_eq; lra.
  - rewrite !(proj2 (hole_side _ _)). cbn [vx vy vz sq_a sq_b sq_c sq_d]. rewrite Rabs_pos_eq; lra.
  - right. sides. cbn [vx vy vz sq_a sq_b sq_c sq_d]. abs_signs. unfold hole_m, demo_tol.
    split; [apply Rgt_not_eq; lra|]. split; [lra|]. split; apply room_wide; lra.
  - destruct (rectangle_hull demo_g demo_tol 300 sq_a sq_b sq_c sq_d) as (w & E & _).
    + exact demo_fits.
    + unfold demo_tol; lra.
    + cbn [In]. intros p P. unfold in_cells, gx, gy, gz. rewrite hole_ind.
      destruct demo_half as (-> & -> & ->).
      destruct P as [<-|[<-|[<-|[<-|[]]]]]; cbn [vx vy vz sq_a sq_b sq_c sq_d]; repeat split; lra.
    + unfold gz. rewrite !hole_ind. destruct demo_half as (_ & _ & ->).
      cbn [vx vy vz sq_a sq_b sq_c sq_d]. lra.
    + unfold grid_fuel. destruct demo_half as (-> & -> & ->). lia.
    + eauto.
Qed.
Lemma triangle_demo :
  (forall p, In p [sq_a; sq_b; sq_d] -> fair demo_g p) /\
  triangle_shape demo_g demo_tol hole_m sq_a sq_b sq_d /\ span demo_g sq_a sq_b sq_d = 100 /\
  exists w, calc_triangle_pos (K := FltR) demo_g demo_tol 300 sq_a sq_b sq_d = Ok w.
Proof.
  assert (S : span demo_g sq_a sq_b sq_d = 100).
  { sides. cbn [vx vy vz sq_a sq_b sq_c sq_d]. abs_signs. lra. }
  split; [|split; [|split]].
  - intros p P. apply sq_fair. cbn [In] in *. tauto.
  - right. right. rewrite S. unfold hole_m, demo_tol. split; [apply Rgt_not_eq; lra|]. split; [lra|].
    cbn [In]. intros p q P. unfold wide.
    destruct P as [P|[P|[P|[]]]]; injection P as <- <-; rewrite (proj1 (hole_side _ _)), (proj2 (hole_side _ _));
      cbn [vx vy vz sq_a sq_b sq_c sq_d]; abs_signs; split; lra.
  - exact S.
  - destruct (triangle_box demo_g demo_tol ltac:(unfold demo_tol; lra) 300 sq_a sq_b sq_d
      (mkVec 40 40 39) (mkVec 51 51 40)) as (w & E & _).
    1-3: rewrite hole_ind; unfold box; cbn [vx vy vz sq_a sq_b sq_c sq_d]; lra.
    1-2: unfold int_vec, int_range; cbn [vx vy vz]; lra.
    + unfold area_int. cbn [vx vy vz]. lra.
    + unfold box_fuel. cbn [vx vy vz]. replace (51 - 40) with (IZR 11) by lra. replace (40 - 39) with (IZR 1) by lra.
      rewrite !zceil_IZR. lia.
    + eauto.
Qed.
