(** The walls of the bucket and of the blade have no holes seen from above. *)
From Coq Require Import Reals ZArith List Bool Lra Lia Psatz.
From Verif Require Import Outcome Base Flt FltR FltRFacts State ModelTypes ModelGeometry
  ModelBodyPos ModelRaster SpecGeo GeoProofs PoseProofs LineProofs LineCells InnerProofs
  SurfaceProofs RasterProofs InsideProofs GeoClaims SpecHole HolePlane HoleProofs.
Import ListNotations.
Open Scope R_scope.

(** ** The corners, once moved, are parallelograms up to the square of the tolerance *)
Lemma abs_scale : forall t z b d, 0 <= t <= / 3 -> 0 <= d -> Rabs z <= b * d -> Rabs (t * z) <= b * d / 3.
Proof.
  intros t z b d T D Z. rewrite Rabs_mult, (Rabs_pos_eq t) by lra.
  pose proof (Rabs_pos z). nra.
Qed.

Lemma bend : forall t jr jl br bl tr tl w d, 0 <= t <= / 3 -> 0 <= d ->
  jl = jr + w -> bl = br + w -> tl = tr + w ->
  Rabs w <= d -> Rabs (br - jr) <= d -> Rabs (tr - jr) <= d -> Rabs (tr - br) <= d ->
  let n := nudge1 (K := FltR) t in
  let jr' := n jr jl br tr in let jl' := n jl jr' bl tl in
  let br' := n br bl jr' tr in let bl' := n bl br' jl' tl in
  let tr' := n tr tl jr' br' in let tl' := n tl tr' jl' bl' in
  Rabs ((tl' - bl') - (tr' - br')) <= 20 * (t * t) * d /\
  Rabs ((jl' - bl') - (jr' - br')) <= 20 * (t * t) * d /\
  Rabs ((jl' - tl') - (jr' - tr')) <= 20 * (t * t) * d.
Proof.
  intros t jr jl br bl tr tl w d T D -> -> -> W B J K. cbv zeta. unfold nudge1. rred.
  set (q1 := w + (br - jr) + (tr - jr)).
  set (q0 := -2 * w + t * q1).
  set (q2 := w + (jr - br) + t * q1 + (tr - br)).
  set (q3 := -2 * w + t * q2 + t * q0).
  set (q4 := w + (jr - tr) + t * q1 + (br - tr) + t * q2).
  apply Rabs_bound in W, B, J, K.
  assert (Q1 : Rabs q1 <= 3 * d) by (apply Rabs_le; unfold q1; lra).
  pose proof (abs_scale t q1 3 d T D Q1) as S1. apply Rabs_bound in S1, Q1.
  assert (Q0 : Rabs q0 <= 3 * d) by (apply Rabs_le; unfold q0; lra).
  pose proof (abs_scale t q0 3 d T D Q0) as S0. apply Rabs_bound in S0, Q0.
  assert (Q2 : Rabs q2 <= 4 * d) by (apply Rabs_le; unfold q2; lra).
  pose proof (abs_scale t q2 4 d T D Q2) as S2. apply Rabs_bound in S2, Q2.
  assert (Q3 : Rabs q3 <= 5 * d) by (apply Rabs_le; unfold q3; lra). apply Rabs_bound in Q3.
  assert (Q4 : Rabs q4 <= 6 * d) by (apply Rabs_le; unfold q4; lra). apply Rabs_bound in Q4.
  assert (TT : forall z, -20 * d <= z <= 20 * d -> Rabs (t * t * z) <= 20 * (t * t) * d).
  { intros z Z. rewrite Rabs_mult, (Rabs_pos_eq (t * t)) by nra.
    assert (Rabs z <= 20 * d) by (apply Rabs_le; lra).
    assert (0 <= t * t) by nra. nra. }
  split; [|split].
  - assert (P : -20 * d <= q4 - q2 + q3 <= 20 * d) by lra. apply TT in P.
    eapply Rle_trans; [|exact P]. right. f_equal. unfold q4, q3, q2, q0, q1. ring.
  - assert (P : -20 * d <= q1 - q2 - q0 <= 20 * d) by lra. apply TT in P.
    eapply Rle_trans; [|exact P]. right. f_equal. unfold q4, q3, q2, q0, q1. ring.
  - assert (P : -20 * d <= q1 - q4 - q0 - q3 <= 20 * d) by lra. apply TT in P.
    eapply Rle_trans; [|exact P]. right. f_equal. unfold q4, q3, q2, q0, q1. ring.
Qed.

(** Opposite sides are the same vector before the corners are moved. *)
Definition same_sides (c : rcorners) : Prop :=
  vx (j_l c) - vx (j_r c) = vx (t_l c) - vx (t_r c) /\ vx (b_l c) - vx (b_r c) = vx (t_l c) - vx (t_r c) /\
  vy (j_l c) - vy (j_r c) = vy (t_l c) - vy (t_r c) /\ vy (b_l c) - vy (b_r c) = vy (t_l c) - vy (t_r c).

Lemma corners_same : forall pos ori (b : rbody), ori <> qzero -> same_sides (rcorner_pos pos ori b).
Proof.
  intros pos ori b H. rewrite corners_placed by auto. unfold map_corners, own_corners.
  cbn [j_r j_l b_r b_l t_r t_l]. rewrite !place_eq, !rot_vadd, !rot_vsub.
  unfold same_sides, vadd, vsub. cbn [j_r j_l b_r b_l t_r t_l vx vy]. repeat split; rred; ring.
Qed.
Lemma back_same : forall (g : rgrid) c, same_sides c -> same_sides (back_corners g c).
Proof.
  intros g c (A & B & C & D). unfold same_sides, back_corners, map_corners, vadd in *.
  cbn [j_r j_l b_r b_l t_r t_l vx vy] in *. rred. repeat split; lra.
Qed.

(** Opposite sides of the walls. *)
Lemma moved_sides : forall (g : rgrid) tol r pos c, 0 < g_cell_xy g -> 0 <= tol <= / 3 -> 0 <= r ->
  corners_in (ball_lo r pos) (ball_hi r pos) c -> same_sides c ->
  let c' := nudge_corners (K := FltR) tol c in
  let e := 40 * (tol * tol) * r / g_cell_xy g in
  0 <= e /\
  (Rabs (side_x g (b_l c') (t_l c') - side_x g (b_r c') (t_r c')) <= e /\
   Rabs (side_y g (b_l c') (t_l c') - side_y g (b_r c') (t_r c')) <= e) /\
  (Rabs (side_x g (b_l c') (j_l c') - side_x g (b_r c') (j_r c')) <= e /\
   Rabs (side_y g (b_l c') (j_l c') - side_y g (b_r c') (j_r c')) <= e) /\
  (Rabs (side_x g (t_l c') (j_l c') - side_x g (t_r c') (j_r c')) <= e /\
   Rabs (side_y g (t_l c') (j_l c') - side_y g (t_r c') (j_r c')) <= e).
Proof.
  intros g tol r pos c C T R0 In0 (S1 & S2 & S3 & S4) c' e.
  assert (I : forall p, In p (corner_list c) -> vx pos - r <= vx p <= vx pos + r /\ vy pos - r <= vy p <= vy pos + r).
  { intros p P. destruct (In0 p P) as (X & Y & _). exact (conj X Y). }
  clear In0. unfold corner_list in I. cbn [In] in I.
  destruct (I (j_r c) ltac:(auto 8)) as [X1 Y1]. destruct (I (j_l c) ltac:(auto 8)) as [X2 Y2].
  destruct (I (b_r c) ltac:(auto 8)) as [X3 Y3]. destruct (I (b_l c) ltac:(auto 8)) as [X4 Y4].
  destruct (I (t_r c) ltac:(auto 8)) as [X5 Y5]. destruct (I (t_l c) ltac:(auto 8)) as [X6 Y6]. clear I.
  assert (IC : 0 < / g_cell_xy g) by (apply Rinv_0_lt_compat; exact C).
  assert (Q : forall u v u' v', Rabs ((u - v) - (u' - v')) <= 20 * (tol * tol) * (2 * r) ->
    Rabs ((u - v) / g_cell_xy g - (u' - v') / g_cell_xy g) <= e).
  { intros u v u' v' H. replace ((u - v) / g_cell_xy g - (u' - v') / g_cell_xy g)
      with (((u - v) - (u' - v')) * / g_cell_xy g) by (field; lra).
    rewrite Rabs_mult, (Rabs_pos_eq (/ g_cell_xy g)) by lra. unfold e, Rdiv.
    apply Rmult_le_compat_r; lra. }
  destruct (bend tol (vx (j_r c)) (vx (j_l c)) (vx (b_r c)) (vx (b_l c)) (vx (t_r c)) (vx (t_l c))
    (vx (t_l c) - vx (t_r c)) (2 * r)) as (A1 & A2 & A3); try lra; try (apply Rabs_le; lra).
  destruct (bend tol (vy (j_r c)) (vy (j_l c)) (vy (b_r c)) (vy (b_l c)) (vy (t_r c)) (vy (t_l c))
    (vy (t_l c) - vy (t_r c)) (2 * r)) as (B1 & B2 & B3); try lra; try (apply Rabs_le; lra).
  split; [|split; [|split]].
  - unfold e. apply Rmult_le_pos; [|lra]. assert (0 <= tol * tol) by nra. nra.
  - split; apply Q; assumption.
  - split; apply Q; assumption.
  - split; apply Q; assumption.
Qed.

(** ** The bucket *)
Lemma bucket_full : forall (g : rgrid) tol fuel buf (b : rbody) pos ori r m ar walls,
  0 < g_cell_xy g -> 0 <= tol <= / 3 -> ori <> qzero -> radius_le b r ->
  tiny + 40 * (tol * tol) * r / g_cell_xy g < m -> m <= / 100 ->
  let c := nudge_corners (K := FltR) tol (rcorner_pos pos ori b) in
  (forall p, In p (corner_list c) -> fair g p) ->
  rectangle_shape g tol m (b_r c) (b_l c) (t_r c) -> rectangle_shape g tol m (b_r c) (b_l c) (j_r c) ->
  triangle_shape g tol m (j_r c) (b_r c) (t_r c) -> triangle_shape g tol m (j_l c) (b_l c) (t_l c) ->
  raster_bucket (K := FltR) g tol fuel buf b pos ori = Ok (ar, walls) ->
  exists base back right left, walls = [base; back; right; left] /\
    full_rectangle g m (b_r c) (b_l c) (t_r c) base /\ full_rectangle g m (b_r c) (b_l c) (j_r c) back /\
    full_triangle g m (j_r c) (b_r c) (t_r c) right /\ full_triangle g m (j_l c) (b_l c) (t_l c) left.
Proof.
  intros g tol fuel buf b pos ori r m ar walls C T O R Mt M c F S1 S2 S3 S4 E.
  pose proof (radius_nonneg b r R) as R0.
  destruct (moved_sides g tol r pos _ C T R0 (corners_in_ball b pos ori r O R) (corners_same pos ori b O))
    as (E0 & (A1 & B1) & (A2 & B2) & _). fold c in A1, B1, A2, B2.
  unfold raster_bucket in E. fold c in E. clearbody c.
  apply bind_ok in E as (a & _ & E). apply bind_ok in E as (w1 & E1 & E).
  apply bind_ok in E as (w2 & E2 & E). apply bind_ok in E as (w3 & E3 & E).
  apply bind_ok in E as (w4 & E4 & E). exists w1, w2, w3, w4.
  assert (F' : forall p, (j_r c = p \/ j_l c = p \/ b_r c = p \/ b_l c = p \/ t_r c = p \/ t_l c = p) -> fair g p).
  { intros p P. apply F. unfold corner_list. cbn [In]. tauto. }
  split; [congruence|]. split; [|split; [|split]].
  - refine (rectangle_full g tol fuel m _ (b_r c) (b_l c) (t_l c) (t_r c) w1 C (proj1 T) E0 Mt M _ A1 B1 S1 E1).
    cbn [In]. intros p P. apply F'. tauto.
  - refine (rectangle_full g tol fuel m _ (b_r c) (b_l c) (j_l c) (j_r c) w2 C (proj1 T) E0 Mt M _ A2 B2 S2 E2).
    cbn [In]. intros p P. apply F'. tauto.
  - refine (triangle_full g tol fuel m (j_r c) (b_r c) (t_r c) w3 C (proj1 T) _ M _ S3 E3); [lra|].
    cbn [In]. intros p P. apply F'. tauto.
  - refine (triangle_full g tol fuel m (j_l c) (b_l c) (t_l c) w4 C (proj1 T) _ M _ S4 E4); [lra|].
    cbn [In]. intros p P. apply F'. tauto.
Qed.

(** ** The blade *)
Lemma blade_full : forall (g : rgrid) tol fuel buf (bo : rbody) pos ori r m ar walls,
  0 < g_cell_xy g -> 0 <= tol <= / 3 -> ori <> qzero -> radius_le bo r ->
  tiny + 40 * (tol * tol) * (r + g_cell_xy g) / g_cell_xy g < m -> m <= / 100 ->
  let f := nudge_corners (K := FltR) tol (rcorner_pos pos ori bo) in
  let b := nudge_corners (K := FltR) tol (back_corners g (rcorner_pos pos ori bo)) in
  (forall p, In p (corner_list f ++ corner_list b) -> fair g p) ->
  (forall c, c = f \/ c = b ->
     rectangle_shape g tol m (b_r c) (b_l c) (j_r c) /\ rectangle_shape g tol m (t_r c) (t_l c) (j_r c)) ->
  raster_blade (K := FltR) g tol fuel buf bo pos ori = Ok (ar, walls) ->
  exists ankle_f ankle_b heel_f heel_b, walls = [ankle_f; ankle_b; heel_f; heel_b] /\
    full_rectangle g m (b_r f) (b_l f) (j_r f) ankle_f /\ full_rectangle g m (b_r b) (b_l b) (j_r b) ankle_b /\
    full_rectangle g m (t_r f) (t_l f) (j_r f) heel_f /\ full_rectangle g m (t_r b) (t_l b) (j_r b) heel_b.
Proof.
  intros g tol fuel buf bo pos ori r m ar walls C T O R Mt M f b F S E.
  pose proof (radius_nonneg bo r R) as R0.
  assert (R1 : 0 <= r + g_cell_xy g) by lra.
  assert (R' : radius_le bo (r + g_cell_xy g)) by (intros p Hp; pose proof (R p Hp); lra).
  pose proof (corners_same pos ori bo O) as SS.
  destruct (moved_sides g tol (r + g_cell_xy g) pos _ C T R1 (corners_in_ball bo pos ori _ O R') SS)
    as (E0 & _ & (A2 & B2) & (A3 & B3)). fold f in A2, B2, A3, B3.
  destruct (moved_sides g tol (r + g_cell_xy g) pos _ C T R1
    (back_in_ball g bo pos ori r O C R) (back_same g _ SS))
    as (_ & _ & (A4 & B4) & (A5 & B5)). fold b in A4, B4, A5, B5.
  assert (EQ : raster_blade (K := FltR) g tol fuel buf bo pos ori =
      (ar <- new_area (K := FltR) g buf (j_r f) (blade_vertices f b) ;;
       ankle_f <- calc_rectangle_pos (K := FltR) g tol fuel (b_r f) (b_l f) (j_l f) (j_r f) ;;
       ankle_b <- calc_rectangle_pos (K := FltR) g tol fuel (b_r b) (b_l b) (j_l b) (j_r b) ;;
       heel_f <- calc_rectangle_pos (K := FltR) g tol fuel (t_r f) (t_l f) (j_l f) (j_r f) ;;
       heel_b <- calc_rectangle_pos (K := FltR) g tol fuel (t_r b) (t_l b) (j_l b) (j_r b) ;;
       Ok (ar, [ankle_f; ankle_b; heel_f; heel_b]))) by reflexivity.
  rewrite EQ in E. clear EQ.
  destruct (S f (or_introl eq_refl)) as [S1 S2]. destruct (S b (or_intror eq_refl)) as [S3 S4]. clear S.
  clearbody f b.
  apply bind_ok in E as (a & _ & E). apply bind_ok in E as (w1 & E1 & E).
  apply bind_ok in E as (w2 & E2 & E). apply bind_ok in E as (w3 & E3 & E).
  apply bind_ok in E as (w4 & E4 & E). exists w1, w2, w3, w4.
  assert (F' : forall c, c = f \/ c = b -> forall p,
    (j_r c = p \/ j_l c = p \/ b_r c = p \/ b_l c = p \/ t_r c = p \/ t_l c = p) -> fair g p).
  { intros c D p P. apply F. apply in_app_iff. unfold corner_list. cbn [In].
    destruct D as [->| ->]; [left|right]; tauto. }
  split; [congruence|]. split; [|split; [|split]].
  - refine (rectangle_full g tol fuel m _ (b_r f) (b_l f) (j_l f) (j_r f) w1 C (proj1 T) E0 Mt M _ A2 B2 S1 E1).
    cbn [In]. intros p P. apply (F' f); tauto.
  - refine (rectangle_full g tol fuel m _ (b_r b) (b_l b) (j_l b) (j_r b) w2 C (proj1 T) E0 Mt M _ A4 B4 S3 E2).
    cbn [In]. intros p P. apply (F' b); tauto.
  - refine (rectangle_full g tol fuel m _ (t_r f) (t_l f) (j_l f) (j_r f) w3 C (proj1 T) E0 Mt M _ A3 B3 S2 E3).
    cbn [In]. intros p P. apply (F' f); tauto.
  - refine (rectangle_full g tol fuel m _ (t_r b) (t_l b) (j_l b) (j_r b) w4 C (proj1 T) E0 Mt M _ A5 B5 S4 E4).
    cbn [In]. intros p P. apply (F' b); tauto.
Qed.

(** ** The corners of the bodies *)
Lemma bucket_vertices : forall (g : rgrid) tol fuel buf (b : rbody) pos ori ar walls,
  raster_bucket (K := FltR) g tol fuel buf b pos ori = Ok (ar, walls) ->
  forall p, In p (corner_list (nudge_corners (K := FltR) tol (rcorner_pos pos ori b))) ->
  exists w, In w walls /\ In (cell_of (ind g p)) w.
Proof.
  intros g tol fuel buf b pos ori ar walls E p P. unfold raster_bucket in E.
  set (c := nudge_corners (K := FltR) tol (rcorner_pos pos ori b)) in *. clearbody c.
  apply bind_ok in E as (a & _ & E). apply bind_ok in E as (w1 & E1 & E).
  apply bind_ok in E as (w2 & E2 & E). apply bind_ok in E as (w3 & E3 & E).
  apply bind_ok in E as (w4 & E4 & E). assert (walls = [w1; w2; w3; w4]) as -> by congruence.
  pose proof (rect_vertices _ _ _ _ _ _ _ _ E1) as V1. pose proof (rect_vertices _ _ _ _ _ _ _ _ E2) as V2.
  unfold corner_list in P. cbn [In] in P, V1, V2 |- *.
  destruct P as [<-|[<-|[<-|[<-|[<-|[<-|[]]]]]]];
    [exists w2|exists w2|exists w1|exists w1|exists w1|exists w1]; (split; [auto|]);
    first [apply V1; tauto | apply V2; tauto].
Qed.
Lemma blade_corners : forall (g : rgrid) tol fuel buf (bo : rbody) pos ori ar walls,
  raster_blade (K := FltR) g tol fuel buf bo pos ori = Ok (ar, walls) ->
  forall p, In p (corner_list (nudge_corners (K := FltR) tol (rcorner_pos pos ori bo)) ++
     corner_list (nudge_corners (K := FltR) tol (back_corners g (rcorner_pos pos ori bo)))) ->
  exists w, In w walls /\ In (cell_of (ind g p)) w.
Proof.
  intros g tol fuel buf bo pos ori ar walls E p P.
  set (f := nudge_corners (K := FltR) tol (rcorner_pos pos ori bo)) in *.
  set (b := nudge_corners (K := FltR) tol (back_corners g (rcorner_pos pos ori bo))) in *.
  assert (EQ : raster_blade (K := FltR) g tol fuel buf bo pos ori =
      (ar <- new_area (K := FltR) g buf (j_r f) (blade_vertices f b) ;;
       ankle_f <- calc_rectangle_pos (K := FltR) g tol fuel (b_r f) (b_l f) (j_l f) (j_r f) ;;
       ankle_b <- calc_rectangle_pos (K := FltR) g tol fuel (b_r b) (b_l b) (j_l b) (j_r b) ;;
       heel_f <- calc_rectangle_pos (K := FltR) g tol fuel (t_r f) (t_l f) (j_l f) (j_r f) ;;
       heel_b <- calc_rectangle_pos (K := FltR) g tol fuel (t_r b) (t_l b) (j_l b) (j_r b) ;;
       Ok (ar, [ankle_f; ankle_b; heel_f; heel_b]))) by reflexivity.
  rewrite EQ in E. clear EQ. clearbody f b.
  apply bind_ok in E as (a & _ & E). apply bind_ok in E as (w1 & E1 & E).
  apply bind_ok in E as (w2 & E2 & E). apply bind_ok in E as (w3 & E3 & E).
  apply bind_ok in E as (w4 & E4 & E). assert (walls = [w1; w2; w3; w4]) as -> by congruence.
  pose proof (rect_vertices _ _ _ _ _ _ _ _ E1) as V1. pose proof (rect_vertices _ _ _ _ _ _ _ _ E2) as V2.
  pose proof (rect_vertices _ _ _ _ _ _ _ _ E3) as V3. pose proof (rect_vertices _ _ _ _ _ _ _ _ E4) as V4.
  apply in_app_iff in P. unfold corner_list in P. cbn [In] in P, V1, V2, V3, V4 |- *.
  destruct P as [P|P]; destruct P as [<-|[<-|[<-|[<-|[<-|[<-|[]]]]]]];
    [exists w1|exists w1|exists w1|exists w1|exists w3|exists w3
    |exists w2|exists w2|exists w2|exists w2|exists w4|exists w4]; (split; [auto|]);
    first [apply V1; tauto | apply V2; tauto | apply V3; tauto | apply V4; tauto].
Qed.
