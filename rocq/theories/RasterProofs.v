(** The walls of a body in exact arithmetic. *)
From Coq Require Import Reals ZArith List Bool Lra Lia Psatz.
From Verif Require Import Outcome Base Flt FltR FltRFacts State ModelTypes ModelGeometry
  ModelBodyPos ModelRaster SpecGeo GeoProofs PoseProofs LineProofs LineCells InnerProofs SurfaceProofs.
Import ListNotations.
Open Scope R_scope.

(** Fuel enough for any line in a box. *)
Definition box_fuel (lo hi : rvec) : Z :=
  (zceil (vx hi - vx lo) + zceil (vy hi - vy lo) + zceil (vz hi - vz lo) + 3)%Z.

Lemma line_fuel_box : forall lo hi p q, box lo hi p -> box lo hi q ->
  (line_fuel p q <= box_fuel lo hi)%Z.
Proof.
  intros lo hi p q (P1 & P2 & P3) (Q1 & Q2 & Q3). unfold line_fuel, box_fuel, n_x, n_y, n_z.
  assert (C : forall o a b l h, 0 < o -> l <= a <= h -> l <= b <= h ->
    (crossings o (span a b) <= zceil (h - l) + 1)%Z).
  { intros o a b l h O A B. eapply Z.le_trans; [apply crossings_span; auto|].
    apply Z.add_le_mono_r, zceil_mono, Rabs_le. lra. }
  pose proof (off_xy_range (up_ (vx p) (vx q)) (vx p)) as O1.
  pose proof (off_xy_range (up_ (vy p) (vy q)) (vy p)) as O2.
  pose proof (off_z_range (up_ (vz p) (vz q)) (vz p)) as O3.
  pose proof (C _ _ _ _ _ (proj1 O1) P1 Q1). pose proof (C _ _ _ _ _ (proj1 O2) P2 Q2).
  pose proof (C _ _ _ _ _ (proj1 O3) P3 Q3). lia.
Qed.

Lemma between_mix : forall t u v l h : R, 0 <= t <= 1 -> l <= u <= h -> l <= v <= h ->
  l <= (1 - t) * u + t * v <= h.
Proof. intros; split; nra. Qed.
Lemma bilinear : forall k h a b d c1 c2 l u : R, 0 <= c1 <= 1 -> 0 <= c2 <= 1 ->
  l <= a * k + h <= u -> l <= b * k + h <= u -> l <= d * k + h <= u ->
  l <= (b * k + h) + (d * k + h) + - (a * k + h) <= u ->
  l <= a * k + h + c1 * ((b + - a) * k) + c2 * ((d + - a) * k) <= u.
Proof.
  intros k h a b d c1 c2 l u H1 H2 Ha Hb Hd He.
  replace (a * k + h + c1 * ((b + - a) * k) + c2 * ((d + - a) * k))
    with ((1 - c1) * ((1 - c2) * (a * k + h) + c2 * (d * k + h)) +
          c1 * ((1 - c2) * (b * k + h) + c2 * ((b * k + h) + (d * k + h) + - (a * k + h)))) by ring.
  repeat apply between_mix; auto.
Qed.
Lemma barycentric : forall k h a b d c1 c2 l u : R, 0 <= c1 -> 0 <= c2 -> c1 + c2 <= 1 ->
  l <= a * k + h <= u -> l <= b * k + h <= u -> l <= d * k + h <= u ->
  l <= a * k + h + c1 * ((b + - a) * k) + c2 * ((d + - a) * k) <= u.
Proof.
  intros k h a b d c1 c2 l u H1 H2 H3 Ha Hb Hd.
  replace (a * k + h + c1 * ((b + - a) * k) + c2 * ((d + - a) * k))
    with ((1 - c1 - c2) * (a * k + h) + c1 * (b * k + h) + c2 * (d * k + h)) by ring.
  generalize dependent (a * k + h); generalize dependent (b * k + h);
    generalize dependent (d * k + h). intros; split; nra.
Qed.

(** Indices of a position (body_pos.cpp:305-316). *)
Definition ind (g : rgrid) (p : rvec) : rvec :=
  mkVec (vx p / g_cell_xy g + IZR (g_half_x g)) (vy p / g_cell_xy g + IZR (g_half_y g))
        (vz p / g_cell_z g + IZR (g_half_z g) - 1).

(** The first call returns what [E] says. *)
Ltac next E := match type of E with _ = ?r =>
  match goal with |- context [bind ?x _] => replace x with r by (symmetry; exact E) end end;
  cbn [bind].

Section Walls.
  Variable g : rgrid.
  Variable tol : R.
  Hypothesis Htol : 0 <= tol.
  Notation ti := (ind g).

  Lemma ti_x : forall p, vx (ti p) = vx p / g_cell_xy g + IZR (g_half_x g).
  Proof. reflexivity. Qed.
  Lemma ti_y : forall p, vy (ti p) = vy p / g_cell_xy g + IZR (g_half_y g).
  Proof. reflexivity. Qed.
  Lemma ti_z : forall p, vz (ti p) = vz p / g_cell_z g + IZR (g_half_z g) - 1.
  Proof. reflexivity. Qed.

  Lemma rectangle_box : forall fuel a b c d lo hi,
    box lo hi (ti a) -> box lo hi (ti b) -> box lo hi (ti c) -> box lo hi (ti d) ->
    vz lo <= vz (ti b) + vz (ti d) - vz (ti a) <= vz hi ->
    int_vec lo -> int_vec hi -> area_int lo hi -> (box_fuel lo hi <= Z.of_nat fuel)%Z ->
    exists l, calc_rectangle_pos (K := FltR) g tol fuel a b c d = Ok l /\ l <> [] /\
      forall x, In x l -> box_near lo hi x.
  Proof.
    intros fuel a b c d lo hi Ba Bb Bc Bd Be Il Ih A F.
    destruct (inner_box g (in_rectangle (K := FltR) tol) a b d [b; c; d] lo hi) as (l0 & E0 & N0); auto.
    { intros p [<-|[<-|[<-|[<-|[]]]]]; auto. }
    { intros c1 c2 I. apply in_rectangle_iff in I.
      destruct Ba as (_ & _ & Ba), Bb as (_ & _ & Bb), Bd as (_ & _ & Bd).
      rewrite !ti_z in Ba, Bb, Bd |- *. rewrite (ti_z a), (ti_z b), (ti_z d) in Be.
      unfold Rdiv, Rminus in *. rewrite !Rplus_assoc in Ba, Bb, Bd.
      rewrite (Rplus_assoc (vz a * / g_cell_z g)).
      apply bilinear; auto; lra. }
    unfold calc_rectangle_pos. next E0.
    assert (LB : forall p q, box lo hi (ti p) -> box lo hi (ti q) ->
      exists l, rline fuel (ti p) (ti q) = Ok l /\ l <> [] /\ forall c, In c l -> box_near lo hi c).
    { intros p q Hp Hq. apply line_box; auto. eapply Z.le_trans; [apply line_fuel_box; eauto|auto]. }
    destruct (LB a b) as (l1 & E1 & M1 & N1); auto. destruct (LB b c) as (l2 & E2 & M2 & N2); auto.
    destruct (LB c d) as (l3 & E3 & M3 & N3); auto. destruct (LB d a) as (l4 & E4 & M4 & N4); auto.
    next E1. next E2. next E3. next E4.
    eexists; split; [reflexivity|]. split.
    - intros H. apply app_eq_nil in H as [_ H]. apply app_eq_nil in H as [H _]. auto.
    - intros x Hx. rewrite !in_app_iff in Hx. intuition auto.
  Qed.

  Lemma triangle_box : forall fuel a b c lo hi,
    box lo hi (ti a) -> box lo hi (ti b) -> box lo hi (ti c) ->
    int_vec lo -> int_vec hi -> area_int lo hi -> (box_fuel lo hi <= Z.of_nat fuel)%Z ->
    exists l, calc_triangle_pos (K := FltR) g tol fuel a b c = Ok l /\ l <> [] /\
      forall x, In x l -> box_near lo hi x.
  Proof.
    intros fuel a b c lo hi Ba Bb Bc Il Ih A F.
    destruct (inner_box g (in_triangle (K := FltR) tol) a b c [b; c] lo hi) as (l0 & E0 & N0); auto.
    { intros p [<-|[<-|[<-|[]]]]; auto. }
    { intros c1 c2 I. apply in_triangle_iff in I.
      destruct Ba as (_ & _ & Ba), Bb as (_ & _ & Bb), Bc as (_ & _ & Bc).
      rewrite !ti_z in Ba, Bb, Bc |- *. unfold Rdiv, Rminus in *. rewrite !Rplus_assoc in Ba, Bb, Bc.
      rewrite (Rplus_assoc (vz a * / g_cell_z g)).
      apply barycentric; lra. }
    unfold calc_triangle_pos. next E0.
    assert (LB : forall p q, box lo hi (ti p) -> box lo hi (ti q) ->
      exists l, rline fuel (ti p) (ti q) = Ok l /\ l <> [] /\ forall c, In c l -> box_near lo hi c).
    { intros p q Hp Hq. apply line_box; auto. eapply Z.le_trans; [apply line_fuel_box; eauto|auto]. }
    destruct (LB a b) as (l1 & E1 & M1 & N1); auto. destruct (LB b c) as (l2 & E2 & M2 & N2); auto.
    destruct (LB c a) as (l3 & E3 & M3 & N3); auto.
    next E1. next E2. next E3.
    eexists; split; [reflexivity|]. split.
    - intros H. apply app_eq_nil in H as [_ H]. apply app_eq_nil in H as [H _]. auto.
    - intros x Hx. rewrite !in_app_iff in Hx. intuition auto.
  Qed.

  (** ** Displaced vertices *)
  Hypothesis Htol3 : tol <= / 3.

  Lemma nudge1_in : forall p q r s lo hi,
    lo <= p <= hi -> lo <= q <= hi -> lo <= r <= hi -> lo <= s <= hi ->
    lo <= nudge1 (K := FltR) tol p q r s <= hi /\
    Rabs (nudge1 (K := FltR) tol p q r s - p) <= 3 * tol * (hi - lo).
  Proof.
    intros p q r s lo hi Hp Hq Hr Hs. unfold nudge1; rred.
    assert (M : 0 <= 1 - 3 * tol) by lra. split.
    - replace (p + tol * (q - p + (r - p) + (s - p)))
        with ((1 - 3 * tol) * p + tol * q + tol * r + tol * s) by ring. split; nra.
    - apply Rabs_le. split; nra.
  Qed.
  Lemma nudge_in : forall p q r s lo hi,
    box lo hi p -> box lo hi q -> box lo hi r -> box lo hi s ->
    box lo hi (nudge (K := FltR) tol p q r s) /\
    Rabs (vz (nudge (K := FltR) tol p q r s) - vz p) <= 3 * tol * (vz hi - vz lo).
  Proof.
    intros p q r s lo hi (P1 & P2 & P3) (Q1 & Q2 & Q3) (R1 & R2 & R3) (S1 & S2 & S3).
    unfold nudge, box; cbn [vx vy vz].
    pose proof (nudge1_in (vx p) (vx q) (vx r) (vx s) (vx lo) (vx hi)).
    pose proof (nudge1_in (vy p) (vy q) (vy r) (vy s) (vy lo) (vy hi)).
    pose proof (nudge1_in (vz p) (vz q) (vz r) (vz s) (vz lo) (vz hi)). tauto.
  Qed.

  Definition corners_in (lo hi : rvec) (c : rcorners) : Prop :=
    forall p, In p (corner_list c) -> box lo hi p.
  (** Heights of opposite sides: the two walls are parallelograms. *)
  Definition level_sides (c : rcorners) : Prop :=
    vz (b_l c) - vz (b_r c) = vz (t_l c) - vz (t_r c) /\
    vz (b_l c) - vz (b_r c) = vz (j_l c) - vz (j_r c).

  Lemma nudge_corners_in : forall c lo hi, corners_in lo hi c ->
    let c' := nudge_corners (K := FltR) tol c in
    corners_in lo hi c' /\
    Forall2 (fun p p' => Rabs (vz p' - vz p) <= 3 * tol * (vz hi - vz lo))
      (corner_list c) (corner_list c').
  Proof.
    intros c lo hi H. unfold corners_in, corner_list in H. cbn [In] in H.
    assert (H1 : box lo hi (j_r c)) by (apply H; auto).
    assert (H2 : box lo hi (j_l c)) by (apply H; auto).
    assert (H3 : box lo hi (b_r c)) by (apply H; auto).
    assert (H4 : box lo hi (b_l c)) by (apply H; auto).
    assert (H5 : box lo hi (t_r c)) by (apply H; auto 6).
    assert (H6 : box lo hi (t_l c)) by (apply H; auto 7). clear H.
    unfold nudge_corners, corners_in, corner_list. cbv zeta. cbn [j_r j_l b_r b_l t_r t_l].
    set (jr := nudge (K := FltR) tol (j_r c) (j_l c) (b_r c) (t_r c)).
    destruct (nudge_in (j_r c) (j_l c) (b_r c) (t_r c) lo hi) as [B1 D1]; auto.
    change (box lo hi jr) in B1. change (Rabs (vz jr - vz (j_r c)) <= 3 * tol * (vz hi - vz lo)) in D1.
    clearbody jr.
    set (jl := nudge (K := FltR) tol (j_l c) jr (b_l c) (t_l c)).
    destruct (nudge_in (j_l c) jr (b_l c) (t_l c) lo hi) as [B2 D2]; auto.
    change (box lo hi jl) in B2. change (Rabs (vz jl - vz (j_l c)) <= 3 * tol * (vz hi - vz lo)) in D2.
    clearbody jl.
    set (br := nudge (K := FltR) tol (b_r c) (b_l c) jr (t_r c)).
    destruct (nudge_in (b_r c) (b_l c) jr (t_r c) lo hi) as [B3 D3]; auto.
    change (box lo hi br) in B3. change (Rabs (vz br - vz (b_r c)) <= 3 * tol * (vz hi - vz lo)) in D3.
    clearbody br.
    set (bl := nudge (K := FltR) tol (b_l c) br jl (t_l c)).
    destruct (nudge_in (b_l c) br jl (t_l c) lo hi) as [B4 D4]; auto.
    change (box lo hi bl) in B4. change (Rabs (vz bl - vz (b_l c)) <= 3 * tol * (vz hi - vz lo)) in D4.
    clearbody bl.
    set (tr := nudge (K := FltR) tol (t_r c) (t_l c) jr br).
    destruct (nudge_in (t_r c) (t_l c) jr br lo hi) as [B5 D5]; auto.
    change (box lo hi tr) in B5. change (Rabs (vz tr - vz (t_r c)) <= 3 * tol * (vz hi - vz lo)) in D5.
    clearbody tr.
    set (tl := nudge (K := FltR) tol (t_l c) tr jl bl).
    destruct (nudge_in (t_l c) tr jl bl lo hi) as [B6 D6]; auto.
    change (box lo hi tl) in B6. change (Rabs (vz tl - vz (t_l c)) <= 3 * tol * (vz hi - vz lo)) in D6.
    clearbody tl. split.
    - intros p [<-|[<-|[<-|[<-|[<-|[<-|[]]]]]]]; assumption.
    - repeat (apply Forall2_cons; [assumption|]). apply Forall2_nil.
  Qed.
End Walls.

(** ** The area of the body *)
Definition clip_lo (buf : Z) (x : R) : Z := Z.max (zround (x - IZR buf)) 1.
Definition clip_hi (buf half : Z) (x : R) : Z := Z.min (zround (x + IZR buf)) (2 * half).

Lemma dmax_IZR : forall a b, dmax (K := FltR) (IZR a) (IZR b) = IZR (Z.max a b).
Proof.
  intros a b. unfold dmax; rred. destruct (Rltb (IZR a) (IZR b)) eqn:E; rbool.
  - apply lt_IZR in E. rewrite Z.max_r by lia. reflexivity.
  - apply le_IZR in E. rewrite Z.max_l by lia. reflexivity.
Qed.
Lemma dmin_IZR : forall a b, dmin (K := FltR) (IZR a) (IZR b) = IZR (Z.min a b).
Proof.
  intros a b. unfold dmin; rred. destruct (Rltb (IZR b) (IZR a)) eqn:E; rbool.
  - apply lt_IZR in E. rewrite Z.min_r by lia. reflexivity.
  - apply le_IZR in E. rewrite Z.min_l by lia. reflexivity.
Qed.

Lemma area_row_eq : forall (g : rgrid) half buf lo hi, (0 <= buf)%Z -> (0 <= 2 * half <= 2147483647)%Z ->
  int_range (lo / g_cell_xy g + IZR half) -> int_range (hi / g_cell_xy g + IZR half) ->
  area_row (K := FltR) g half buf lo hi =
  Ok (clip_lo buf (lo / g_cell_xy g + IZR half), clip_hi buf half (hi / g_cell_xy g + IZR half)).
Proof.
  intros g half buf lo hi Hb Hh Hl Hu. unfold area_row, d1, d2. rred.
  set (x := lo / g_cell_xy g + IZR half) in *. set (y := hi / g_cell_xy g + IZR half) in *.
  rewrite <- mult_IZR. rewrite (dmax_IZR (zround (x - IZR buf)) 1), dmin_IZR.
  rewrite !d_int_IZR. fold (clip_lo buf x). fold (clip_hi buf half y).
  unfold int_range in *. apply IZR_le in Hb.
  assert (E1 : int_ok (clip_lo buf x) = true).
  { apply int_ok_range. unfold clip_lo. pose proof (zround_spec (x - IZR buf)).
    assert (zround (x - IZR buf) < 2147483648)%Z by (apply lt_IZR; lra). lia. }
  assert (E2 : int_ok (clip_hi buf half y) = true).
  { apply int_ok_range. unfold clip_hi. pose proof (zround_spec (y + IZR buf)).
    assert (-2147483649 < zround (y + IZR buf))%Z by (apply lt_IZR; lra). lia. }
  rewrite E1, E2. reflexivity.
Qed.

Definition low (a : rvec) (l : list rvec) : rvec :=
  mkVec (smin_list (K := FltR) (vx a) (map vx l)) (smin_list (K := FltR) (vy a) (map vy l))
        (smin_list (K := FltR) (vz a) (map vz l)).
Definition high (a : rvec) (l : list rvec) : rvec :=
  mkVec (smax_list (K := FltR) (vx a) (map vx l)) (smax_list (K := FltR) (vy a) (map vy l))
        (smax_list (K := FltR) (vz a) (map vz l)).

Lemma smin_list_in : forall l a, In (smin_list (K := FltR) a l) (a :: l).
Proof.
  unfold smin_list. induction l as [|y l IH]; intros a; cbn [fold_left]; [left; auto|].
  rewrite smin_Rmin. destruct (IH (Rmin a y)) as [E|E]; [|right; right; exact E].
  rewrite <- E. unfold Rmin. destruct (Rle_dec a y); [left|right; left]; auto.
Qed.
Lemma smax_list_in : forall l a, In (smax_list (K := FltR) a l) (a :: l).
Proof.
  unfold smax_list. induction l as [|y l IH]; intros a; cbn [fold_left]; [left; auto|].
  rewrite smax_Rmax. destruct (IH (Rmax a y)) as [E|E]; [|right; right; exact E].
  rewrite <- E. unfold Rmax. destruct (Rle_dec a y); [right; left|left]; auto.
Qed.

Lemma low_high : forall a l p, In p (a :: l) -> box (low a l) (high a l) p.
Proof.
  intros a l p H. unfold box, low, high; cbn [vx vy vz].
  assert (A : forall (f : rvec -> R), smin_list (K := FltR) (f a) (map f l) <= f p <=
                                     smax_list (K := FltR) (f a) (map f l)).
  { intros f. destruct (proj1 (smin_list_ge (map f l) (f a) _) (Rle_refl _)) as [m1 m2].
    destruct (proj1 (smax_list_le (map f l) (f a) _) (Rle_refl _)) as [m3 m4].
    destruct H as [<-|H]; [auto|]. split; [apply m2|apply m4]; apply in_map; auto. }
  split; [|split]; apply A.
Qed.
Lemma low_box : forall a l lo hi, (forall p, In p (a :: l) -> box lo hi p) ->
  box lo hi (low a l) /\ box lo hi (high a l).
Proof.
  intros a l lo hi H.
  assert (M : forall (f : rvec -> R) x, In x (f a :: map f l) -> exists p, In p (a :: l) /\ f p = x).
  { intros f x [<-|Hx]; [exists a; split; [left|]; auto|].
    apply in_map_iff in Hx. destruct Hx as (p & <- & Hp). exists p; split; [right|]; auto. }
  assert (A : forall (f : rvec -> R), (forall p, In p (a :: l) -> f lo <= f p <= f hi) ->
    f lo <= smin_list (K := FltR) (f a) (map f l) <= f hi /\
    f lo <= smax_list (K := FltR) (f a) (map f l) <= f hi).
  { intros f F. split.
    - destruct (M f _ (smin_list_in (map f l) (f a))) as (p & Hp & E). rewrite <- E. auto.
    - destruct (M f _ (smax_list_in (map f l) (f a))) as (p & Hp & E). rewrite <- E. auto. }
  pose proof (A vx (fun p Hp => proj1 (H p Hp))) as [].
  pose proof (A vy (fun p Hp => proj1 (proj2 (H p Hp)))) as [].
  pose proof (A vz (fun p Hp => proj2 (proj2 (H p Hp)))) as [].
  unfold box, low, high; cbn [vx vy vz]. auto 6.
Qed.
Lemma low_attained : forall a l,
  (exists p, In p (a :: l) /\ vx p = vx (low a l)) /\ (exists p, In p (a :: l) /\ vy p = vy (low a l)) /\
  (exists p, In p (a :: l) /\ vx p = vx (high a l)) /\ (exists p, In p (a :: l) /\ vy p = vy (high a l)).
Proof.
  intros a l.
  assert (M : forall (f : rvec -> R) x, In x (f a :: map f l) -> exists p, In p (a :: l) /\ f p = x).
  { intros f x [<-|Hx]; [exists a; split; [left|]; auto|].
    apply in_map_iff in Hx. destruct Hx as (p & <- & Hp). exists p; split; [right|]; auto. }
  unfold low, high; cbn [vx vy vz].
  split; [|split; [|split]]; apply M; (apply smin_list_in || apply smax_list_in).
Qed.

Lemma new_area_eq : forall (g : rgrid) buf a l, (0 <= buf)%Z ->
  (0 <= 2 * g_half_x g <= 2147483647)%Z -> (0 <= 2 * g_half_y g <= 2147483647)%Z ->
  int_vec (ind g (low a l)) -> int_vec (ind g (high a l)) ->
  new_area (K := FltR) g buf a l =
  Ok (mkArea (clip_lo buf (vx (ind g (low a l)))) (clip_hi buf (g_half_x g) (vx (ind g (high a l))))
             (clip_lo buf (vy (ind g (low a l)))) (clip_hi buf (g_half_y g) (vy (ind g (high a l))))).
Proof.
  intros g buf a l Hb Hx Hy (Lx & Ly & _) (Hgx & Hgy & _). unfold new_area.
  pose proof (area_row_eq g (g_half_x g) buf _ _ Hb Hx Lx Hgx) as E1. next E1.
  pose proof (area_row_eq g (g_half_y g) buf _ _ Hb Hy Ly Hgy) as E2. next E2. reflexivity.
Qed.

(** ** The bucket and the blade *)
Lemma ind_box : forall (g : rgrid) lo hi p, 0 < g_cell_xy g -> 0 < g_cell_z g ->
  box lo hi p -> box (ind g lo) (ind g hi) (ind g p).
Proof.
  intros g lo hi p Cx Cz (Hx & Hy & Hz). unfold box, ind; cbn [vx vy vz]. rred.
  apply Rinv_0_lt_compat in Cx. apply Rinv_0_lt_compat in Cz. unfold Rdiv.
  repeat split; nra.
Qed.
(** Extension of a box along z, for the walls whose displaced vertices are not the
    vertices of a parallelogram. *)
Definition stretch (m : R) (p : rvec) : rvec := mkVec (vx p) (vy p) (vz p + m).

Lemma Rabs_bound : forall a b, Rabs a <= b -> - b <= a <= b.
Proof. intros a b H. pose proof (Rle_abs a). pose proof (Rle_abs (- a)). rewrite Rabs_Ropp in *. lra. Qed.

Section Body.
  Variable g : rgrid.
  Variable tol : R.
  Variables (lo hi : rvec).
  Variables (buf : Z) (fuel : nat).
  Hypothesis Htol : 0 <= tol <= / 3.
  Hypothesis Hxy : 0 < g_cell_xy g.
  Hypothesis Hz : 0 < g_cell_z g.
  Hypothesis Hgx : (0 <= 2 * g_half_x g <= 2147483647)%Z.
  Hypothesis Hgy : (0 <= 2 * g_half_y g <= 2147483647)%Z.
  Let m := 9 * tol * (vz hi - vz lo).
  Let lo' := stretch (- m) lo.
  Let hi' := stretch m hi.
  Hypothesis Ilo : int_vec (ind g lo').
  Hypothesis Ihi : int_vec (ind g hi').
  Hypothesis Iar : area_int (ind g lo') (ind g hi').
  Hypothesis Hfu : (box_fuel (ind g lo') (ind g hi') <= Z.of_nat fuel)%Z.
  Hypothesis Hbu : (0 <= buf)%Z.

  (** Four vertices of a wall and their displaced positions. *)
  Lemma side_z : forall a b c d a' b' d',
    box lo hi c -> vz b - vz a = vz c - vz d ->
    Rabs (vz a' - vz a) <= 3 * tol * (vz hi - vz lo) ->
    Rabs (vz b' - vz b) <= 3 * tol * (vz hi - vz lo) ->
    Rabs (vz d' - vz d) <= 3 * tol * (vz hi - vz lo) ->
    vz lo' <= vz b' + vz d' - vz a' <= vz hi'.
  Proof.
    intros a b c d a' b' d' (_ & _ & C) E A B D.
    apply Rabs_bound in A. apply Rabs_bound in B. apply Rabs_bound in D.
    unfold lo', hi', stretch, m; cbn [vz]. lra.
  Qed.

  (** What is known of the walls: not empty, and every cell less than one cell away
      from the box of the vertices [v :: l]. *)
  Definition walls_in (v : rvec) (l : list rvec) (walls : list (list cell3)) : Prop :=
    forall w, In w walls -> w <> [] /\
      forall c, In c w ->
        box_near (ind g (mkVec (vx (low v l)) (vy (low v l)) (vz lo')))
                 (ind g (mkVec (vx (high v l)) (vy (high v l)) (vz hi'))) c.

  Lemma m_nonneg : forall p, box lo hi p -> 0 <= m.
  Proof.
    intros p (_ & _ & P). unfold m. apply Rmult_le_pos; [lra|]. lra.
  Qed.

  Section Vertices.
    Variables (v : rvec) (l : list rvec).
    Hypothesis Hv : forall p, In p (v :: l) -> box lo hi p.
    Let L := ind g (mkVec (vx (low v l)) (vy (low v l)) (vz lo')).
    Let H := ind g (mkVec (vx (high v l)) (vy (high v l)) (vz hi')).

    Lemma in_LH : forall p, In p (v :: l) -> box L H (ind g p).
    Proof.
      intros p Hp. apply ind_box; auto. pose proof (low_high v l p Hp) as (X & Y & _).
      pose proof (Hv p Hp) as B. pose proof (m_nonneg p B) as M. destruct B as (_ & _ & Z).
      unfold box, lo', hi', stretch; cbn [vx vy vz]. repeat split; lra.
    Qed.
    Lemma LH_box : box (ind g lo') (ind g hi') L /\ box (ind g lo') (ind g hi') H.
    Proof.
      destruct (low_box v l lo hi Hv) as [(A1 & A2 & A3) (B1 & B2 & B3)].
      pose proof (m_nonneg _ (Hv v (or_introl eq_refl))) as M.
      split; apply ind_box; auto; unfold box, lo', hi', stretch; cbn [vx vy vz]; repeat split; lra.
    Qed.
    Lemma LH_int : int_vec L /\ int_vec H.
    Proof.
      destruct LH_box as [(A1 & A2 & A3) (B1 & B2 & B3)].
      destruct Ilo as (I1 & I2 & I3), Ihi as (J1 & J2 & J3).
      unfold int_vec, int_range in *. repeat split; lra.
    Qed.
    Lemma LH_le : vx L <= vx H /\ vy L <= vy H.
    Proof.
      destruct (in_LH v (or_introl eq_refl)) as (A & B & _). lra.
    Qed.
    Lemma LH_area : area_int L H.
    Proof.
      destruct LH_box as [(A1 & A2 & A3) (B1 & B2 & B3)]. destruct LH_le.
      unfold area_int in *. eapply Rle_trans; [|exact Iar].
      apply Rmult_le_compat_l; [lra|]. apply Rmult_le_compat; lra.
    Qed.
    Lemma LH_fuel : (box_fuel L H <= Z.of_nat fuel)%Z.
    Proof.
      destruct LH_box as [(A1 & A2 & A3) (B1 & B2 & B3)].
      eapply Z.le_trans; [|exact Hfu]. unfold box_fuel.
      pose proof (zceil_mono (vx H - vx L) (vx (ind g hi') - vx (ind g lo')) ltac:(lra)).
      pose proof (zceil_mono (vy H - vy L) (vy (ind g hi') - vy (ind g lo')) ltac:(lra)).
      pose proof (zceil_mono (vz H - vz L) (vz (ind g hi') - vz (ind g lo')) ltac:(lra)). lia.
    Qed.

    Lemma wall4 : forall a b c d,
      In a (v :: l) -> In b (v :: l) -> In c (v :: l) -> In d (v :: l) ->
      vz lo' <= vz b + vz d - vz a <= vz hi' ->
      exists w, calc_rectangle_pos (K := FltR) g tol fuel a b c d = Ok w /\ w <> [] /\
        forall x, In x w -> box_near L H x.
    Proof.
      intros a b c d Ha Hb Hc Hd E. destruct LH_int.
      apply rectangle_box; auto using in_LH, LH_area, LH_fuel; [lra|].
      assert (B : box (mkVec (vx a) (vy a) (vz lo')) (mkVec (vx a) (vy a) (vz hi'))
                      (mkVec (vx a) (vy a) (vz b + vz d - vz a))).
      { unfold box; cbn [vx vy vz]; repeat split; lra. }
      apply (ind_box g) in B; auto. destruct B as (_ & _ & B). revert B.
      unfold L, H, ind; cbn [vx vy vz]. unfold Rdiv. rewrite Rmult_minus_distr_r, Rmult_plus_distr_r. lra.
    Qed.
    Lemma wall3 : forall a b c, In a (v :: l) -> In b (v :: l) -> In c (v :: l) ->
      exists w, calc_triangle_pos (K := FltR) g tol fuel a b c = Ok w /\ w <> [] /\
        forall x, In x w -> box_near L H x.
    Proof.
      intros a b c Ha Hb Hc. destruct LH_int.
      apply triangle_box; auto using in_LH, LH_area, LH_fuel. lra.
    Qed.
    Lemma area_vl : new_area (K := FltR) g buf v l =
      Ok (mkArea (clip_lo buf (vx (ind g (low v l)))) (clip_hi buf (g_half_x g) (vx (ind g (high v l))))
                 (clip_lo buf (vy (ind g (low v l)))) (clip_hi buf (g_half_y g) (vy (ind g (high v l))))).
    Proof.
      destruct (low_box v l lo hi Hv) as [A B].
      assert (G : forall p, box lo hi p -> int_vec (ind g p)).
      { intros p P. pose proof (m_nonneg p P) as M.
        assert (Q : box lo' hi' p).
        { destruct P as (P1 & P2 & P3). unfold box, lo', hi', stretch; cbn [vx vy vz]. repeat split; lra. }
        apply (ind_box g) in Q; auto. destruct Q as (Q1 & Q2 & Q3).
        destruct Ilo as (I1 & I2 & I3), Ihi as (J1 & J2 & J3).
        unfold int_vec, int_range in *. repeat split; lra. }
      apply new_area_eq; auto.
    Qed.
  End Vertices.

  Definition area_of (v : rvec) (l : list rvec) : area :=
    mkArea (clip_lo buf (vx (ind g (low v l)))) (clip_hi buf (g_half_x g) (vx (ind g (high v l))))
           (clip_lo buf (vy (ind g (low v l)))) (clip_hi buf (g_half_y g) (vy (ind g (high v l)))).

  Lemma bucket_ok : forall (b : rbody) pos ori,
    let c := rcorner_pos pos ori b in
    let c' := nudge_corners (K := FltR) tol c in
    corners_in lo hi c -> level_sides c ->
    exists walls, raster_bucket (K := FltR) g tol fuel buf b pos ori =
      Ok (area_of (j_r c') [j_l c'; b_r c'; b_l c'; t_r c'; t_l c'], walls) /\
      length walls = 4%nat /\
      walls_in (j_r c') [j_l c'; b_r c'; b_l c'; t_r c'; t_l c'] walls.
  Proof.
    intros b pos ori c c' Hc Hs. unfold raster_bucket. fold c. fold c'.
    destruct (nudge_corners_in tol (proj1 Htol) (proj2 Htol) c lo hi Hc) as [Hc' D]. fold c' in Hc', D.
    change (corner_list c') with (j_r c' :: [j_l c'; b_r c'; b_l c'; t_r c'; t_l c']) in D.
    assert (Hv : forall p, In p (j_r c' :: [j_l c'; b_r c'; b_l c'; t_r c'; t_l c']) -> box lo hi p)
      by exact Hc'.
    clearbody c'. revert D Hv. unfold corner_list.
    set (jr := j_r c'). set (jl := j_l c'). set (br := b_r c'). set (bl := b_l c').
    set (tr := t_r c'). set (tl := t_l c'). intros D Hv.
    inversion D as [|? ? ? ? D1 R1]; subst; clear D. inversion R1 as [|? ? ? ? D2 R2]; subst; clear R1.
    inversion R2 as [|? ? ? ? D3 R3]; subst; clear R2. inversion R3 as [|? ? ? ? D4 R4]; subst; clear R3.
    inversion R4 as [|? ? ? ? D5 R5]; subst; clear R4. inversion R5 as [|? ? ? ? D6 R6]; subst; clear R5 R6.
    assert (Ct : box lo hi (t_l c)) by (apply Hc; cbn; auto 7).
    assert (Cj : box lo hi (j_l c)) by (apply Hc; cbn; auto 7).
    destruct Hs as [S1 S2].
    pose proof (area_vl jr [jl; br; bl; tr; tl] Hv) as EA.
    destruct (wall4 jr [jl; br; bl; tr; tl] Hv br bl tl tr) as (w1 & E1 & N1 & B1);
      try (cbn [In]; auto 8; fail).
    { apply (side_z (b_r c) (b_l c) (t_l c) (t_r c)); auto. }
    destruct (wall4 jr [jl; br; bl; tr; tl] Hv br bl jl jr) as (w2 & E2 & N2 & B2);
      try (cbn [In]; auto 8; fail).
    { apply (side_z (b_r c) (b_l c) (j_l c) (j_r c)); auto. }
    destruct (wall3 jr [jl; br; bl; tr; tl] Hv jr br tr) as (w3 & E3 & N3 & B3);
      try (cbn [In]; auto 8; fail).
    destruct (wall3 jr [jl; br; bl; tr; tl] Hv jl bl tl) as (w4 & E4 & N4 & B4);
      try (cbn [In]; auto 8; fail).
    exists [w1; w2; w3; w4].
    next EA. next E1. next E2. next E3. next E4. split; [reflexivity|]. split; [reflexivity|].
    intros w [<-|[<-|[<-|[<-|[]]]]]; auto.
  Qed.

  (** body_pos.cpp:155-190: the back of the blade. *)
  Definition back_corners (f : rcorners) : rcorners :=
    let n := calc_normal (K := FltR) (j_r f) (j_l f) (b_l f) in
    map_corners (fun p => vadd p (vscale (g_cell_xy g) n)) f.
  Definition blade_vertices (f b : rcorners) : list rvec :=
    [j_l f; b_r f; b_l f; t_r f; t_l f; j_r b; j_l b; b_r b; b_l b; t_r b; t_l b].

  Lemma back_level : forall f, level_sides f -> level_sides (back_corners f).
  Proof.
    intros f [S1 S2]. unfold level_sides, back_corners, map_corners, vadd, vscale in *.
    cbn [j_r j_l b_r b_l t_r t_l vz] in *. rred. lra.
  Qed.

  Lemma blade_ok : forall (bo : rbody) pos ori,
    let f := rcorner_pos pos ori bo in
    let b := back_corners f in
    let f' := nudge_corners (K := FltR) tol f in
    let b' := nudge_corners (K := FltR) tol b in
    corners_in lo hi f -> corners_in lo hi b -> level_sides f ->
    exists walls, raster_blade (K := FltR) g tol fuel buf bo pos ori =
      Ok (area_of (j_r f') (blade_vertices f' b'), walls) /\
      length walls = 4%nat /\
      walls_in (j_r f') (blade_vertices f' b') walls.
  Proof.
    intros bo pos ori f b f' b' Hf Hb Hs.
    assert (E : raster_blade (K := FltR) g tol fuel buf bo pos ori =
      (ar <- new_area (K := FltR) g buf (j_r f') (blade_vertices f' b') ;;
       ankle_f <- calc_rectangle_pos (K := FltR) g tol fuel (b_r f') (b_l f') (j_l f') (j_r f') ;;
       ankle_b <- calc_rectangle_pos (K := FltR) g tol fuel (b_r b') (b_l b') (j_l b') (j_r b') ;;
       heel_f <- calc_rectangle_pos (K := FltR) g tol fuel (t_r f') (t_l f') (j_l f') (j_r f') ;;
       heel_b <- calc_rectangle_pos (K := FltR) g tol fuel (t_r b') (t_l b') (j_l b') (j_r b') ;;
       Ok (ar, [ankle_f; ankle_b; heel_f; heel_b]))) by reflexivity.
    rewrite E. clear E.
    pose proof (back_level f Hs) as Hs'. fold b in Hs'.
    destruct (nudge_corners_in tol (proj1 Htol) (proj2 Htol) f lo hi Hf) as [Hf' Df]. fold f' in Hf', Df.
    destruct (nudge_corners_in tol (proj1 Htol) (proj2 Htol) b lo hi Hb) as [Hb' Db]. fold b' in Hb', Db.
    set (V := blade_vertices f' b').
    assert (Hv : forall p, In p (j_r f' :: V) -> box lo hi p).
    { intros p Hp. change (In p (corner_list f' ++ corner_list b')) in Hp.
      apply in_app_or in Hp. destruct Hp.
      - apply Hf'; auto.
      - apply Hb'; auto. }
    clearbody f' b' b. unfold corner_list in Df, Db.
    inversion Df as [|? ? ? ? D1 R1]; subst; clear Df. inversion R1 as [|? ? ? ? D2 R2]; subst; clear R1.
    inversion R2 as [|? ? ? ? D3 R3]; subst; clear R2. inversion R3 as [|? ? ? ? D4 R4]; subst; clear R3.
    inversion R4 as [|? ? ? ? D5 R5]; subst; clear R4. inversion R5 as [|? ? ? ? D6 R6]; subst; clear R5 R6.
    inversion Db as [|? ? ? ? F1 R1]; subst; clear Db. inversion R1 as [|? ? ? ? F2 R2]; subst; clear R1.
    inversion R2 as [|? ? ? ? F3 R3]; subst; clear R2. inversion R3 as [|? ? ? ? F4 R4]; subst; clear R3.
    inversion R4 as [|? ? ? ? F5 R5]; subst; clear R4. inversion R5 as [|? ? ? ? F6 R6]; subst; clear R5 R6.
    assert (Cf : box lo hi (j_l f)) by (apply Hf; cbn; auto 7).
    assert (Cb : box lo hi (j_l b)) by (apply Hb; cbn; auto 7).
    destruct Hs as [S1 S2]. destruct Hs' as [S1' S2'].
    assert (S3 : vz (t_l f) - vz (t_r f) = vz (j_l f) - vz (j_r f)) by (rewrite <- S1; exact S2).
    assert (S3' : vz (t_l b) - vz (t_r b) = vz (j_l b) - vz (j_r b)) by (rewrite <- S1'; exact S2').
    pose proof (area_vl (j_r f') V Hv) as EA.
    destruct (wall4 (j_r f') V Hv (b_r f') (b_l f') (j_l f') (j_r f')) as (w1 & E1 & N1 & B1);
      try (unfold V, blade_vertices; cbn [In]; tauto).
    { exact (side_z (b_r f) (b_l f) (j_l f) (j_r f) _ _ _ Cf S2 D3 D4 D1). }
    destruct (wall4 (j_r f') V Hv (b_r b') (b_l b') (j_l b') (j_r b')) as (w2 & E2 & N2 & B2);
      try (unfold V, blade_vertices; cbn [In]; tauto).
    { exact (side_z (b_r b) (b_l b) (j_l b) (j_r b) _ _ _ Cb S2' F3 F4 F1). }
    destruct (wall4 (j_r f') V Hv (t_r f') (t_l f') (j_l f') (j_r f')) as (w3 & E3 & N3 & B3);
      try (unfold V, blade_vertices; cbn [In]; tauto).
    { exact (side_z (t_r f) (t_l f) (j_l f) (j_r f) _ _ _ Cf S3 D5 D6 D1). }
    destruct (wall4 (j_r f') V Hv (t_r b') (t_l b') (j_l b') (j_r b')) as (w4 & E4 & N4 & B4);
      try (unfold V, blade_vertices; cbn [In]; tauto).
    { exact (side_z (t_r b) (t_l b) (j_l b) (j_r b) _ _ _ Cb S3' F5 F6 F1). }
    exists [w1; w2; w3; w4].
    next EA. next E1. next E2. next E3. next E4. split; [reflexivity|]. split; [reflexivity|].
    intros w [<-|[<-|[<-|[<-|[]]]]]; auto.
  Qed.
End Body.

(** A cell near the box of the vertices is in the area, unless the area is clipped. *)
Lemma near_area : forall (g : rgrid) buf v l zl zh c, (2 <= buf)%Z ->
  (forall p, In p (v :: l) -> 2 <= vx (ind g p) <= 2 * IZR (g_half_x g) - 1 /\
                             2 <= vy (ind g p) <= 2 * IZR (g_half_y g) - 1) ->
  box_near (ind g (mkVec (vx (low v l)) (vy (low v l)) zl))
           (ind g (mkVec (vx (high v l)) (vy (high v l)) zh)) c ->
  in_area (area_of g buf v l) (fst (fst c)) (snd (fst c)).
Proof.
  intros g buf v l zl zh [[i j] k] Hb Hin (Hx & Hy & _). cbn [fst snd].
  destruct (low_attained v l) as ((p1 & P1 & X1) & (p2 & P2 & Y1) & (p3 & P3 & X2) & (p4 & P4 & Y2)).
  destruct (Hin p1 P1) as [A1 _]. destruct (Hin p2 P2) as [_ A2].
  destruct (Hin p3 P3) as [A3 _]. destruct (Hin p4 P4) as [_ A4].
  unfold ind in *; cbn [vx vy vz] in *. rewrite X1 in A1. rewrite Y1 in A2. rewrite X2 in A3.
  rewrite Y2 in A4. unfold area_of, in_area, ind, clip_lo, clip_hi. cbn [x_lo x_hi y_lo y_hi vx vy vz].
  set (xl := vx (low v l) / g_cell_xy g + IZR (g_half_x g)) in *.
  set (xh := vx (high v l) / g_cell_xy g + IZR (g_half_x g)) in *.
  set (yl := vy (low v l) / g_cell_xy g + IZR (g_half_y g)) in *.
  set (yh := vy (high v l) / g_cell_xy g + IZR (g_half_y g)) in *.
  apply IZR_le in Hb.
  pose proof (zround_spec (xl - IZR buf)). pose proof (zround_spec (xh + IZR buf)).
  pose proof (zround_spec (yl - IZR buf)). pose proof (zround_spec (yh + IZR buf)).
  assert (zround (xl - IZR buf) <= i)%Z by (apply le_IZR; lra).
  assert (1 < i)%Z by (apply lt_IZR; lra).
  assert (i < zround (xh + IZR buf))%Z by (apply lt_IZR; lra).
  assert (i < 2 * g_half_x g)%Z by (apply lt_IZR; rewrite mult_IZR; lra).
  assert (zround (yl - IZR buf) <= j)%Z by (apply le_IZR; lra).
  assert (1 < j)%Z by (apply lt_IZR; lra).
  assert (j < zround (yh + IZR buf))%Z by (apply lt_IZR; lra).
  assert (j < 2 * g_half_y g)%Z by (apply lt_IZR; rewrite mult_IZR; lra).
  lia.
Qed.

(** A cell within [buf - 2] of such a cell is in the area too. *)
Lemma near_area_room : forall (g : rgrid) buf v l zl zh c i' j',
  box_near (ind g (mkVec (vx (low v l)) (vy (low v l)) zl))
           (ind g (mkVec (vx (high v l)) (vy (high v l)) zh)) c ->
  (1 <= i' < 2 * g_half_x g)%Z -> (1 <= j' < 2 * g_half_y g)%Z ->
  (Z.abs (i' - fst (fst c)) <= buf - 2)%Z -> (Z.abs (j' - snd (fst c)) <= buf - 2)%Z ->
  in_area (area_of g buf v l) i' j'.
Proof.
  intros g buf v l zl zh [[i j] k] i' j' (Hx & Hy & _) Hi Hj Di Dj. cbn [fst snd] in *.
  unfold area_of, in_area, ind, clip_lo, clip_hi in *. cbn [x_lo x_hi y_lo y_hi vx vy vz] in *.
  set (xl := vx (low v l) / g_cell_xy g + IZR (g_half_x g)) in *.
  set (xh := vx (high v l) / g_cell_xy g + IZR (g_half_x g)) in *.
  set (yl := vy (low v l) / g_cell_xy g + IZR (g_half_y g)) in *.
  set (yh := vy (high v l) / g_cell_xy g + IZR (g_half_y g)) in *.
  assert (A1 : (i - (buf - 2) <= i')%Z) by lia. assert (A2 : (i' <= i + (buf - 2))%Z) by lia.
  assert (A3 : (j - (buf - 2) <= j')%Z) by lia. assert (A4 : (j' <= j + (buf - 2))%Z) by lia.
  apply IZR_le in A1, A2, A3, A4.
  repeat rewrite ?plus_IZR, ?minus_IZR in A1. repeat rewrite ?plus_IZR, ?minus_IZR in A2.
  repeat rewrite ?plus_IZR, ?minus_IZR in A3. repeat rewrite ?plus_IZR, ?minus_IZR in A4.
  pose proof (zround_spec (xl - IZR buf)). pose proof (zround_spec (xh + IZR buf)).
  pose proof (zround_spec (yl - IZR buf)). pose proof (zround_spec (yh + IZR buf)).
  assert (zround (xl - IZR buf) <= i')%Z by (apply le_IZR; lra).
  assert (i' < zround (xh + IZR buf))%Z by (apply lt_IZR; lra).
  assert (zround (yl - IZR buf) <= j')%Z by (apply le_IZR; lra).
  assert (j' < zround (yh + IZR buf))%Z by (apply lt_IZR; lra).
  lia.
Qed.

(** The sides of a body have the same height difference. *)
Lemma corners_level : forall pos ori (b : rbody), ori <> qzero ->
  level_sides (rcorner_pos pos ori b).
Proof.
  intros pos ori b H. rewrite corners_placed by auto.
  unfold map_corners, own_corners, level_sides. cbn [j_r j_l b_r b_l t_r t_l].
  rewrite !place_eq, !rot_vadd, !rot_vsub. unfold vadd, vsub; cbn [vz]. split; ring.
Qed.
