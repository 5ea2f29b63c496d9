(** The walls have no holes seen from above, in exact arithmetic. *)
From Coq Require Import Reals ZArith List Bool Lra Lia Psatz.
From Verif Require Import Outcome Base Flt FltR FltRFacts State ModelTypes ModelGeometry
  ModelBodyPos ModelRaster SpecGeo GeoProofs PoseProofs LineProofs LineCells InnerProofs
  SurfaceProofs RasterProofs InsideProofs GeoClaims SpecHole HolePlane.
Import ListNotations.
Open Scope R_scope.

(** ** Lines *)
Lemma line_loop_more : forall f ux uy uz dx dy dz norm n x y z tx ty tz l,
  line_loop (K := FltR) f ux uy uz dx dy dz norm x y z tx ty tz = Ok l ->
  line_loop (K := FltR) (f + n) ux uy uz dx dy dz norm x y z tx ty tz = Ok l.
Proof.
  induction f as [|f IH]; intros ux uy uz dx dy dz norm n x y z tx ty tz l H.
  - cbn [line_loop] in H. destruct (_ || _ || _) eqn:E; [discriminate|].
    destruct n; cbn [Nat.add line_loop]; rewrite E; exact H.
  - cbn [Nat.add line_loop] in H |- *. destruct (_ || _ || _); [|exact H].
    assert (GO : forall x y z tx ty tz,
      bind (line_cell x y z) (fun c => bind (line_loop f ux uy uz dx dy dz norm x y z tx ty tz)
        (fun l => Ok (c :: l))) = Ok l ->
      bind (line_cell x y z) (fun c => bind (line_loop (f + n) ux uy uz dx dy dz norm x y z tx ty tz)
        (fun l => Ok (c :: l))) = Ok l).
    { intros x0 y0 z0 tx0 ty0 tz0 Q. apply bind_ok in Q as (c & C & Q). apply bind_ok in Q as (l' & L & Q).
      rewrite C. cbn [bind]. rewrite (IH _ _ _ _ _ _ _ n _ _ _ _ _ _ _ L). cbn [bind]. exact Q. }
    destruct (sltb tx ty); [destruct (sltb tx tz)|destruct (sltb ty tz)]; apply GO; exact H.
Qed.
Lemma line_more : forall f n p q l, rline f p q = Ok l -> rline (f + n) p q = Ok l.
Proof.
  intros f n p q l H. unfold line_pos in H |- *. apply bind_ok in H as (c & C & H).
  apply bind_ok in H as (l' & L & H). rewrite C. cbn [bind].
  rewrite (line_loop_more _ _ _ _ _ _ _ _ n _ _ _ _ _ _ _ L). exact H.
Qed.

(** A line that ends covers its segment. *)
Lemma line_covers : forall fuel p q l, rline fuel p q = Ok l -> int_vec p -> int_vec q ->
  LineCells.off_border p -> forall s, 0 <= s <= 1 ->
  exists c, In c l /\ cell_holds c (point_at p q s).
Proof.
  intros fuel p q l H Ip Iq O s S.
  pose proof (line_more fuel (Z.to_nat (line_fuel p q)) p q l H) as H'.
  destruct (line_spec (fuel + Z.to_nat (line_fuel p q)) p q Ip Iq) as (ks & _ & E & _ & _ & B); [lia|].
  assert (L : l = map (line_at p q) ((0, 0, 0)%Z :: ks)) by congruence. rewrite L. clear L.
  destruct (B s S) as (k & K & A).
  exists (line_at p q k). split; [apply in_map; auto|]. apply at_fraction_holds; auto.
Qed.

(** The first cell of a line is the cell of its first point. *)
Lemma line_first : forall fuel p q l, rline fuel p q = Ok l -> In (cell_of p) l.
Proof.
  intros fuel p q l H. unfold line_pos in H. apply bind_ok in H as (c & C & H).
  apply bind_ok in H as (l' & _ & H). injection H as <-. left.
  rewrite line_cell_eq in C. destruct (_ && _ && _); [|discriminate].
  injection C as <-. reflexivity.
Qed.

(** A column crossed well inside by a point of the line. *)
Lemma line_column : forall fuel p q l m i j s, rline fuel p q = Ok l -> int_vec p -> int_vec q ->
  LineCells.off_border p -> tiny < m -> 0 <= s <= 1 ->
  Rabs (vx (point_at p q s) - IZR i) <= / 2 - m -> Rabs (vy (point_at p q s) - IZR j) <= / 2 - m ->
  exists k, In (i, j, k) l.
Proof.
  intros fuel p q l m i j s H Ip Iq O M S X Y.
  destruct (line_covers fuel p q l H Ip Iq O s S) as ([[i' j'] k] & C & (X' & Y' & _)).
  assert (U : forall v a b, Rabs (v - IZR a) <= / 2 - m -> Rabs (v - IZR b) <= / 2 + tiny -> b = a).
  { intros v a b A B. apply Rabs_bound in A. apply Rabs_bound in B.
    assert (a < b + 1)%Z by (apply lt_IZR; rewrite plus_IZR; lra).
    assert (b < a + 1)%Z by (apply lt_IZR; rewrite plus_IZR; lra). lia. }
  rewrite (U _ _ _ X X'), (U _ _ _ Y Y') in C. eauto.
Qed.

(** ** The inner cells *)
Lemma s_int_val : forall (x n : Z), s_int (K := FltR) (IZR x) = Ok n -> n = x.
Proof. intros x n H. rewrite s_int_IZR in H. destruct (int_ok x); congruence. Qed.
Lemma chk_int_val : forall x n, chk_int x = Ok n -> n = x.
Proof. intros x n H. unfold chk_int in H. destruct (int_ok x); congruence. Qed.

Lemma inner_fills : forall (g : rgrid) inside a b d others l,
  surface_inner (K := FltR) g inside a b d others = Ok l ->
  0 < g_cell_xy g ->
  let A := ind g a in let B := ind g b in let D := ind g d in
  (vx B - vx A) * (vy D - vy A) - (vy B - vy A) * (vx D - vx A) <> 0 ->
  forall i0 j0 c1 c2, inside (c1, c2) = true ->
  vx A + c1 * (vx B - vx A) + c2 * (vx D - vx A) = IZR i0 + / 2 ->
  vy A + c1 * (vy B - vy A) + c2 * (vy D - vy A) = IZR j0 + / 2 ->
  (exists p q, In p (a :: others) /\ In q (a :: others) /\
     vx (ind g p) < IZR i0 + 1 /\ IZR i0 < vx (ind g q)) ->
  (exists p q, In p (a :: others) /\ In q (a :: others) /\
     vy (ind g p) < IZR j0 + 1 /\ IZR j0 < vy (ind g q)) ->
  forall i j, (i = i0 \/ i = i0 + 1)%Z -> (j = j0 \/ j = j0 + 1)%Z -> exists k, In (i, j, k) l.
Proof.
  intros g inside a b d others l H C A B D N i0 j0 c1 c2 I X Y BX BY i j Hi Hj.
  unfold surface_inner in H. rred.
  set (mx := smin_list (K := FltR) (vx A) (map vx (map (ind g) others))).
  set (Mx := smax_list (K := FltR) (vx A) (map vx (map (ind g) others))).
  set (my := smin_list (K := FltR) (vy A) (map vy (map (ind g) others))).
  set (My := smax_list (K := FltR) (vy A) (map vy (map (ind g) others))).
  apply bind_ok in H as (x1 & E1 & H). apply bind_ok in H as (x2 & E2 & H).
  apply bind_ok in H as (y1 & E3 & H). apply bind_ok in H as (y2 & E4 & H).
  apply bind_ok in H as (lx & E5 & H). apply bind_ok in H as (ly & E6 & H).
  apply (s_int_val (zfloor mx)) in E1. apply (s_int_val (zceil Mx)) in E2.
  apply (s_int_val (zfloor my)) in E3. apply (s_int_val (zceil My)) in E4.
  apply chk_int_val in E5. apply chk_int_val in E6. subst lx ly.
  assert (RX : (x1 <= i0 < x2)%Z).
  { destruct BX as (p & q & P & Q & L). subst x1 x2.
    assert (P1 : mx <= vx (ind g p)).
    { destruct (proj1 (smin_list_ge (map vx (map (ind g) others)) (vx A) mx) (Rle_refl _)) as [m1 m2].
      destruct P as [<-|P]; [exact m1|]. apply m2. apply in_map, in_map, P. }
    assert (P2 : vx (ind g q) <= Mx).
    { destruct (proj1 (smax_list_le (map vx (map (ind g) others)) (vx A) Mx) (Rle_refl _)) as [m1 m2].
      destruct Q as [<-|Q]; [exact m1|]. apply m2. apply in_map, in_map, Q. }
    pose proof (zfloor_spec mx). pose proof (zceil_spec Mx). split.
    - apply Zlt_succ_le. apply lt_IZR. rewrite succ_IZR. lra.
    - apply lt_IZR. lra. }
  assert (RY : (y1 <= j0 < y2)%Z).
  { destruct BY as (p & q & P & Q & L). subst y1 y2.
    assert (P1 : my <= vy (ind g p)).
    { destruct (proj1 (smin_list_ge (map vy (map (ind g) others)) (vy A) my) (Rle_refl _)) as [m1 m2].
      destruct P as [<-|P]; [exact m1|]. apply m2. apply in_map, in_map, P. }
    assert (P2 : vy (ind g q) <= My).
    { destruct (proj1 (smax_list_le (map vy (map (ind g) others)) (vy A) My) (Rle_refl _)) as [m1 m2].
      destruct Q as [<-|Q]; [exact m1|]. apply m2. apply in_map, in_map, Q. }
    pose proof (zfloor_spec my). pose proof (zceil_spec My). split.
    - apply Zlt_succ_le. apply lt_IZR. rewrite succ_IZR. lra.
    - apply lt_IZR. lra. }
  clear E1 E2 E3 E4 BX BY. clear mx Mx my My.
  set (ab := mkVec (vx (vmap2 Rminus b a) / g_cell_xy g) (vy (vmap2 Rminus b a) / g_cell_xy g)
                   (vz (vmap2 Rminus b a) / g_cell_z g)).
  set (ad := mkVec (vx (vmap2 Rminus d a) / g_cell_xy g) (vy (vmap2 Rminus d a) / g_cell_xy g)
                   (vz (vmap2 Rminus d a) / g_cell_z g)).
  assert (Ux : vx ab = vx B - vx A) by (unfold ab, A, B, ind; cbn [vx vy vz vmap2]; field; lra).
  assert (Uy : vy ab = vy B - vy A) by (unfold ab, A, B, ind; cbn [vx vy vz vmap2]; field; lra).
  assert (Vx : vx ad = vx D - vx A) by (unfold ad, A, D, ind; cbn [vx vy vz vmap2]; field; lra).
  assert (Vy : vy ad = vy D - vy A) by (unfold ad, A, D, ind; cbn [vx vy vz vmap2]; field; lra).
  pose proof (fill_inner_eq (K := FltR) inside A ab ad x1 x2 y1 y2) as FE.
  match type of H with context [@decompose ?k ?f ?a1 ?a2 ?a3 ?a4 ?a5 ?a6 ?a7] =>
    change (@decompose k f a1 a2 a3 a4 a5 a6 a7) with
      (decompose (K := FltR) inside ab ad A x1 y1 (x2 - x1) (y2 - y1)) in H end.
  destruct (decompose (K := FltR) inside ab ad A x1 y1 (x2 - x1) (y2 - y1)) as [[cs ins] n].
  apply bind_ok in H as (n' & E7 & H). apply chk_int_val in E7. subst n'.
  match type of H with context [fill_inner _ _ ?a1 ?a2 ?a3 _ _ _ _ _] =>
    change a1 with A in H; change a2 with ab in H; change a3 with ad in H end.
  rewrite FE in H. destruct (collect_spec (K := FltR) ab ad A x1 y1 _ _ H) as [_ IN].
  assert (CO : coeffs_at (K := FltR) A ab ad x1 y1 (i0, j0) = (c1, c2)).
  { unfold coeffs_at. cbn [fst snd].
    apply coeffs_solve; [unfold det; rewrite Ux, Uy, Vx, Vy; exact N|].
    rewrite Ux, Uy, Vx, Vy, !minus_IZR. rred. split; lra. }
  assert (M : In (i0, j0) (marked (K := FltR) inside A ab ad x1 x2 y1 y2)).
  { apply marked_in. rewrite CO. cbn [fst snd]. auto. }
  assert (K : exists k, s_int (K := FltR) (sceil (surface_z (K := FltR) A ab ad x1 y1 (i0, j0))) = Ok k).
  { clear IN FE. revert l H. induction (marked (K := FltR) inside A ab ad x1 x2 y1 y2) as [|c r IH];
      intros l H; [destruct M|]. cbn [collect] in H. apply bind_ok in H as (k & E & H).
    apply bind_ok in H as (r' & E' & _). destruct M as [->|M]; [eauto|].
    eapply IH; eauto. }
  destruct K as [k K]. exists k. apply IN. exists (i0, j0), k. split; [exact M|]. split; [exact K|].
  cbn [four In]. destruct Hi as [->| ->], Hj as [->| ->]; auto 6.
Qed.

(** ** Surfaces *)
Lemma well_in_between : forall m i j x y x' y' t, 0 <= t <= 1 ->
  well_in m i j x y -> well_in m i j x' y' ->
  well_in m i j ((1 - t) * x + t * x') ((1 - t) * y + t * y').
Proof.
  intros m i j x y x' y' t T [X Y] [X' Y']. apply Rabs_bound in X, Y, X', Y'.
  split; apply Rabs_le; split; nra.
Qed.

Lemma well_in_corner : forall m i j x y, 0 < m <= / 100 -> (x = -1 \/ x = 1) -> (y = -1 \/ y = 1) ->
  well_in m i j (IZR i + x * (/ 2 - m)) (IZR j + y * (/ 2 - m)).
Proof.
  intros m i j x y M X Y. split; apply Rabs_le; destruct X as [->| ->], Y as [->| ->]; split; lra.
Qed.

Lemma well_in_near : forall m e i j x y x' y', well_in m i j x y ->
  Rabs (x' - x) <= e -> Rabs (y' - y) <= e -> well_in (m - e) i j x' y'.
Proof.
  intros m e i j x y x' y' [X Y] X' Y'. apply Rabs_bound in X, Y, X', Y'.
  split; apply Rabs_le; split; lra.
Qed.
Lemma scaled : forall v z e, 0 <= v <= 1 -> Rabs z <= e -> Rabs (v * z) <= e.
Proof.
  intros v z e V Z. rewrite Rabs_mult, (Rabs_pos_eq v) by lra.
  pose proof (Rabs_pos z). nra.
Qed.

(** Two vectors of the plane that are parallel cancel out. *)
Lemma parallel : forall ux uy wx wy, ux * wy - uy * wx = 0 ->
  exists s t, (s <> 0 \/ t <> 0) /\ s * ux + t * wx = 0 /\ s * uy + t * wy = 0.
Proof.
  intros ux uy wx wy H.
  destruct (Req_dec wx 0) as [X|X]; [destruct (Req_dec ux 0) as [Y|Y]|].
  - destruct (Req_dec wy 0) as [Z|Z].
    + exists 0, 1. subst. split; [right; lra|]. split; ring_simplify; auto.
    + exists wy, (- uy). subst. split; [left; auto|]. split; ring.
  - assert (wy = 0) by (rewrite X in H; assert (ux * wy = 0) by lra;
      destruct (Rmult_integral _ _ H0); tauto).
    exists 0, 1. subst. split; [right; lra|]. split; ring.
  - exists wx, (- ux). split; [left; auto|]. split; [ring|]. lra.
Qed.

(** Out of the unit square along any direction. *)
Lemma get_out : forall u v s t, (s <> 0 \/ t <> 0) -> 0 <= u <= 1 -> 0 <= v <= 1 ->
  exists n, 1 - (u + n * s) < 0 \/ 1 - (v + n * t) < 0.
Proof.
  intros u v s t [S|S] U V.
  - exists (2 / s). left. replace (2 / s * s) with 2 by (field; auto). lra.
  - exists (2 / t). right. replace (2 / t * t) with 2 by (field; auto). lra.
Qed.

Ltac eqw W := let W' := fresh in pose proof W as W'; match type of W' with
  | well_in ?m ?i ?j ?x ?y => match goal with |- well_in _ _ _ ?x' ?y' =>
      replace x' with x; [replace y' with y; [exact W'|symmetry]|symmetry] end end; clear W'.

(** A point between the vertices of a parallelogram, along an axis. *)
Lemma hull_axis : forall (f : rvec -> R) a b c d c1 c2 x e, 0 <= c1 <= 1 -> 0 <= c2 <= 1 -> 0 <= e ->
  Rabs (f c - (f b + f d - f a)) <= e -> f a + c1 * (f b - f a) + c2 * (f d - f a) = x ->
  exists p q, In p [a; b; c; d] /\ In q [a; b; c; d] /\ f p - e <= x <= f q + e.
Proof.
  intros f a b c d c1 c2 x e C1 C2 E0 C X. cbn [In]. apply Rabs_bound in C.
  destruct (Rle_dec 0 (f b - f a)) as [U|U], (Rle_dec 0 (f d - f a)) as [V|V].
  - exists a, c. split; [auto|]. split; [auto|]. split; nra.
  - exists d, b. split; [auto 6|]. split; [auto|]. split; nra.
  - exists b, d. split; [auto|]. split; [auto 6|]. split; nra.
  - exists c, a. split; [auto|]. split; [auto|]. split; nra.
Qed.

Lemma hull_axis3 : forall (f : rvec -> R) a b c c1 c2 x, 0 <= c1 -> 0 <= c2 -> c1 + c2 <= 1 ->
  f a + c1 * (f b - f a) + c2 * (f c - f a) = x ->
  exists p q, In p [a; b; c] /\ In q [a; b; c] /\ f p <= x <= f q.
Proof.
  intros f a b c c1 c2 x C1 C2 C X. cbn [In].
  assert (L : exists p, (a = p \/ b = p \/ c = p \/ False) /\ f p <= x).
  { destruct (Rle_dec (f a) x); [eauto|]. destruct (Rle_dec (f b) x); [eauto|].
    exists c. split; [auto|]. destruct (Rle_dec (f c) x); [auto|]. exfalso.
    assert (0 <= c1 * (f b - x)) by (apply Rmult_le_pos; lra).
    assert (0 <= c2 * (f c - x)) by (apply Rmult_le_pos; lra).
    assert (0 <= (1 - c1 - c2) * (f a - x)) by (apply Rmult_le_pos; lra).
    destruct (Req_dec (1 - c1 - c2) 0); [destruct (Req_dec c1 0)|]; nra. }
  assert (R : exists p, (a = p \/ b = p \/ c = p \/ False) /\ x <= f p).
  { destruct (Rle_dec x (f a)); [eauto|]. destruct (Rle_dec x (f b)); [eauto|].
    exists c. split; [auto|]. destruct (Rle_dec x (f c)); [auto|]. exfalso.
    assert (0 <= c1 * (x - f b)) by (apply Rmult_le_pos; lra).
    assert (0 <= c2 * (x - f c)) by (apply Rmult_le_pos; lra).
    assert (0 <= (1 - c1 - c2) * (x - f a)) by (apply Rmult_le_pos; lra).
    destruct (Req_dec (1 - c1 - c2) 0); [destruct (Req_dec c1 0)|]; nra. }
  destruct L as (p & P & L), R as (q & Q & R). exists p, q. auto.
Qed.

Section Surface.
  Variables (g : rgrid) (tol : R) (fuel : nat) (m e : R).
  Hypotheses (Cxy : 0 < g_cell_xy g) (T : 0 <= tol) (M : 0 < m <= / 100) (E0 : 0 <= e)
    (Mt : tiny + e < m).

  Let fair := fair g.

  Lemma edge_column : forall m' p q l i j s, tiny < m' -> calc_line_pos (K := FltR) g fuel p q = Ok l -> fair p -> fair q ->
    0 <= s <= 1 ->
    well_in m' i j (vx (ind g p) + s * (vx (ind g q) - vx (ind g p)))
                  (vy (ind g p) + s * (vy (ind g q) - vy (ind g p))) ->
    exists k, In (i, j, k) l.
  Proof.
    intros m' p q l i j s Mt' H [P1 P2] [Q1 Q2] S [X Y].
    apply (line_column fuel (ind g p) (ind g q) l m' i j s); auto.
  Qed.

  (** *** Rectangles *)
  Section Rectangle.
    Variables (a b c d : rvec) (w : list cell3).
    Hypotheses (E : calc_rectangle_pos (K := FltR) g tol fuel a b c d = Ok w)
      (Fa : fair a) (Fb : fair b) (Fc : fair c) (Fd : fair d)
      (Px : Rabs (vx (ind g c) - (vx (ind g b) + vx (ind g d) - vx (ind g a))) <= e)
      (Py : Rabs (vy (ind g c) - (vy (ind g b) + vy (ind g d) - vy (ind g a))) <= e).
    Let A := ind g a. Let B := ind g b. Let D := ind g d.
    Let ux := vx B - vx A. Let uy := vy B - vy A.
    Let wx := vx D - vx A. Let wy := vy D - vy A.

    Lemma rect_edge : forall i j u v, 0 <= u <= 1 -> 0 <= v <= 1 ->
      u = 0 \/ u = 1 \/ v = 0 \/ v = 1 ->
      well_in m i j (vx A + u * ux + v * wx) (vy A + u * uy + v * wy) ->
      exists k, In (i, j, k) w.
    Proof.
      intros i j u v U V X W. assert (Mt' : tiny < m - e) by lra. assert (Mt0 : tiny < m) by lra.
      pose proof E as H. unfold calc_rectangle_pos in H.
      apply bind_ok in H as (l & _ & H). apply bind_ok in H as (l1 & E1 & H).
      apply bind_ok in H as (l2 & E2 & H). apply bind_ok in H as (l3 & E3 & H).
      apply bind_ok in H as (l4 & E4 & H). assert (w = l ++ l1 ++ l2 ++ l3 ++ l4) as -> by congruence.
      clear H. destruct X as [X|[X|[X|X]]].
      - destruct (edge_column m d a l4 i j (1 - v) Mt0 E4) as [k K]; auto; [lra| |].
        + eqw W; fold A D; rewrite X; unfold wx, wy; ring.
        + exists k. rewrite !in_app_iff. auto 6.
      - destruct (edge_column (m - e) b c l2 i j v Mt' E2) as [k K]; auto.
        + apply (well_in_near m e _ _ _ _ _ _ W); fold B; rewrite X; unfold ux, uy, wx, wy.
          * replace (_ - _) with (v * (vx (ind g c) - (vx B + vx D - vx A))) by ring.
            apply scaled; auto.
          * replace (_ - _) with (v * (vy (ind g c) - (vy B + vy D - vy A))) by ring.
            apply scaled; auto.
        + exists k. rewrite !in_app_iff. auto 6.
      - destruct (edge_column m a b l1 i j u Mt0 E1) as [k K]; auto.
        + eqw W; fold A B; rewrite X; unfold ux, uy; ring.
        + exists k. rewrite !in_app_iff. auto 6.
      - destruct (edge_column (m - e) c d l3 i j (1 - u) Mt' E3) as [k K]; auto; [lra| |].
        + apply (well_in_near m e _ _ _ _ _ _ W); fold D; rewrite X; unfold ux, uy, wx, wy.
          * replace (_ - _) with (u * (vx (ind g c) - (vx B + vx D - vx A))) by ring.
            apply scaled; auto.
          * replace (_ - _) with (u * (vy (ind g c) - (vy B + vy D - vy A))) by ring.
            apply scaled; auto.
        + exists k. rewrite !in_app_iff. auto 6.
    Qed.

    (** From a point of the surface towards another, within the column, out of the surface. *)
    Lemma rect_out : forall i j u v u' v', 0 <= u <= 1 -> 0 <= v <= 1 ->
      u' < 0 \/ 1 - u' < 0 \/ v' < 0 \/ 1 - v' < 0 ->
      well_in m i j (vx A + u * ux + v * wx) (vy A + u * uy + v * wy) ->
      well_in m i j (vx A + u' * ux + v' * wx) (vy A + u' * uy + v' * wy) ->
      exists k, In (i, j, k) w.
    Proof.
      intros i j u v u' v' U V O W W'.
      destruct (leave [(u, u'); (1 - u, 1 - u'); (v, v'); (1 - v, 1 - v')]) as (t & Ht & P & Z).
      - cbn [In]. intros x [<-|[<-|[<-|[<-|[]]]]]; cbn; lra.
      - destruct O as [O|[O|[O|O]]]; [exists (u, u')|exists (1 - u, 1 - u')|exists (v, v')|
          exists (1 - v, 1 - v')]; cbn [In snd]; auto 6.
      - pose proof (P (u, u') ltac:(cbn; auto)) as P1. pose proof (P (1 - u, 1 - u') ltac:(cbn; auto)) as P2.
        pose proof (P (v, v') ltac:(cbn; auto)) as P3. pose proof (P (1 - v, 1 - v') ltac:(cbn; auto 6)) as P4.
        cbn [fst snd] in P1, P2, P3, P4.
        apply (rect_edge i j ((1 - t) * u + t * u') ((1 - t) * v + t * v')); try lra.
        + destruct Z as (x & [<-|[<-|[<-|[<-|[]]]]] & Z); cbn [fst snd] in Z; lra.
        + eqw (well_in_between _ _ _ _ _ _ _ t Ht W W'); ring.
    Qed.

    Lemma rect_flat : ux * wy - uy * wx = 0 -> forall i j u v, 0 <= u <= 1 -> 0 <= v <= 1 ->
      well_in m i j (vx A + u * ux + v * wx) (vy A + u * uy + v * wy) -> exists k, In (i, j, k) w.
    Proof.
      intros F i j u v U V W. destruct (parallel _ _ _ _ F) as (s & t & N & X & Y).
      destruct (get_out u v s t N U V) as (n & O).
      apply (rect_out i j u v (u + n * s) (v + n * t)); auto; [tauto|]. eqw W.
      - transitivity (vy A + u * uy + v * wy + n * (s * uy + t * wy)); [|rewrite Y]; ring.
      - transitivity (vx A + u * ux + v * wx + n * (s * ux + t * wx)); [|rewrite X]; ring.
    Qed.

    Lemma rect_column : let det := ux * wy - uy * wx in det <> 0 ->
      room tol m ((Rabs wx + Rabs wy) / Rabs det) -> room tol m ((Rabs ux + Rabs uy) / Rabs det) ->
      5 * (tol + m) * Rabs det < 1 ->
      forall i j u v, 0 <= u <= 1 -> 0 <= v <= 1 ->
      well_in m i j (vx A + u * ux + v * wx) (vy A + u * uy + v * wy) -> exists k, In (i, j, k) w.
    Proof.
      intros det N R1 R2 S i j u v U V W.
      set (x0 := IZR i - vx A). set (y0 := IZR j - vy A).
      set (p1 := (x0 * wy - y0 * wx) / det). set (p2 := (y0 * ux - x0 * uy) / det).
      set (a1 := wy / det). set (b1 := - wx / det). set (a2 := - uy / det). set (b2 := ux / det).
      assert (XE : forall x y, vx A + value p1 a1 b1 x y * ux + value p2 a2 b2 x y * wx = IZR i + x).
      { intros. unfold value, p1, a1, b1, p2, a2, b2, x0, y0.
        match goal with |- ?l = ?r => transitivity (vx A + (IZR i - vx A + x) * det / det) end.
        - unfold det. field. exact N.
        - field. exact N. }
      assert (YE : forall x y, vy A + value p1 a1 b1 x y * uy + value p2 a2 b2 x y * wy = IZR j + y).
      { intros. unfold value, p1, a1, b1, p2, a2, b2, x0, y0.
        match goal with |- ?l = ?r => transitivity (vy A + (IZR j - vy A + y) * det / det) end.
        - unfold det. field. exact N.
        - field. exact N. }
      assert (DEC : (exists x y, (x = -1 \/ x = 1) /\ (y = -1 \/ y = 1) /\
          let c1 := value p1 a1 b1 (x * (/ 2 - m)) (y * (/ 2 - m)) in
          let c2 := value p2 a2 b2 (x * (/ 2 - m)) (y * (/ 2 - m)) in
          (c1 < 0 \/ 1 - c1 < 0 \/ c2 < 0 \/ 1 - c2 < 0)) \/
        (forall x y, (x = -1 \/ x = 1) -> (y = -1 \/ y = 1) ->
          0 <= value p1 a1 b1 (x * (/ 2 - m)) (y * (/ 2 - m)) <= 1 /\
          0 <= value p2 a2 b2 (x * (/ 2 - m)) (y * (/ 2 - m)) <= 1)).
      { assert (ONE : forall x y, (let c1 := value p1 a1 b1 x y in let c2 := value p2 a2 b2 x y in
            (c1 < 0 \/ 1 - c1 < 0 \/ c2 < 0 \/ 1 - c2 < 0)) \/
            (0 <= value p1 a1 b1 x y <= 1 /\ 0 <= value p2 a2 b2 x y <= 1)) by (intros; cbv zeta; lra).
        destruct (ONE (-1 * (/ 2 - m)) (-1 * (/ 2 - m))) as [O|O1]; [left; exists (-1), (-1); auto|].
        destruct (ONE (-1 * (/ 2 - m)) (1 * (/ 2 - m))) as [O|O2]; [left; exists (-1), 1; auto|].
        destruct (ONE (1 * (/ 2 - m)) (-1 * (/ 2 - m))) as [O|O3]; [left; exists 1, (-1); auto|].
        destruct (ONE (1 * (/ 2 - m)) (1 * (/ 2 - m))) as [O|O4]; [left; exists 1, 1; auto|].
        right. intros x y [->| ->] [->| ->]; assumption. }
      destruct DEC as [(x & y & X & Y & O)|IN].
      - apply (rect_out i j u v _ _ U V O W). rewrite XE, YE. apply well_in_corner; auto.
      - assert (AD : 0 < Rabs det) by (apply Rabs_pos_lt; exact N).
        assert (RD : Rabs (/ det) = / Rabs det) by (apply Rabs_inv).
        assert (G1 : Rabs a1 + Rabs b1 = (Rabs wx + Rabs wy) / Rabs det).
        { unfold a1, b1, Rdiv. rewrite !Rabs_mult, Rabs_Ropp, RD. ring. }
        assert (G2 : Rabs a2 + Rabs b2 = (Rabs ux + Rabs uy) / Rabs det).
        { unfold a2, b2, Rdiv. rewrite !Rabs_mult, Rabs_Ropp, RD. ring. }
        assert (G3 : a1 * b2 - b1 * a2 = / det).
        { transitivity (det / (det * det)); [|field; exact N].
          unfold a1, b1, a2, b2. unfold det at 5. field. exact N. }
        destruct (square_corner p1 a1 b1 p2 a2 b2 tol m T M) as (x & y & X & Y & [L1 H1] & [L2 H2]).
        + intros x y X Y. apply (IN x y X Y).
        + intros x y X Y. apply (IN x y X Y).
        + rewrite G1; exact R1.
        + rewrite G2; exact R2.
        + rewrite G3, RD. apply (Rmult_lt_reg_r (Rabs det)); [exact AD|].
          rewrite Rinv_l; [exact S|lra].
        + pose proof (XE (x / 2) (y / 2)) as X1. pose proof (YE (x / 2) (y / 2)) as Y1.
          set (c1 := value p1 a1 b1 (x / 2) (y / 2)) in *.
          set (c2 := value p2 a2 b2 (x / 2) (y / 2)) in *.
          set (i0 := if Req_EM_T x 1 then i else (i - 1)%Z).
          set (j0 := if Req_EM_T y 1 then j else (j - 1)%Z).
          assert (IE : IZR i + x / 2 = IZR i0 + / 2 /\ (i = i0 \/ i = i0 + 1)%Z).
          { unfold i0. destruct (Req_EM_T x 1) as [->|K]; [split; [lra|auto]|].
            destruct X as [->|X]; [|tauto]. rewrite minus_IZR. split; [lra|lia]. }
          assert (JE : IZR j + y / 2 = IZR j0 + / 2 /\ (j = j0 \/ j = j0 + 1)%Z).
          { unfold j0. destruct (Req_EM_T y 1) as [->|K]; [split; [lra|auto]|].
            destruct Y as [->|Y]; [|tauto]. rewrite minus_IZR. split; [lra|lia]. }
          destruct IE as [IE I0], JE as [JE J0]. rewrite IE in X1. rewrite JE in Y1.
          clear R1 R2 IN XE YE G1 G2 G3. clearbody c1 c2 i0 j0.
          pose proof E as H. unfold calc_rectangle_pos in H. apply bind_ok in H as (l & EI & H).
          destruct (inner_fills g _ a b d [b; c; d] l EI Cxy) with (i0 := i0) (j0 := j0) (c1 := c1) (c2 := c2)
            (i := i) (j := j) as [k K]; auto.
          * apply in_rectangle_iff. auto.
          * destruct (hull_axis (fun p => vx (ind g p)) a b c d c1 c2 (IZR i0 + / 2) e) as (p & q & P & Q & L);
              auto; try lra. exists p, q. cbn beta in L. pose proof tiny_pos. split; [exact P|]. split; [exact Q|]. split; lra.
          * destruct (hull_axis (fun p => vy (ind g p)) a b c d c1 c2 (IZR j0 + / 2) e) as (p & q & P & Q & L);
              auto; try lra. exists p, q. cbn beta in L. pose proof tiny_pos. split; [exact P|]. split; [exact Q|]. split; lra.
          * exists k. apply bind_ok in H as (l1 & _ & H).
            apply bind_ok in H as (l2 & _ & H). apply bind_ok in H as (l3 & _ & H).
            apply bind_ok in H as (l4 & _ & H).
            assert (w = l ++ l1 ++ l2 ++ l3 ++ l4) as -> by congruence.
            apply in_app_iff. auto.
    Qed.
  End Rectangle.

  (** *** Triangles *)
  Section Triangle.
    Variables (a b c : rvec) (w : list cell3).
    Hypotheses (E : calc_triangle_pos (K := FltR) g tol fuel a b c = Ok w)
      (Fa : fair a) (Fb : fair b) (Fc : fair c).
    Let A := ind g a. Let B := ind g b. Let D := ind g c.
    Let ux := vx B - vx A. Let uy := vy B - vy A.
    Let wx := vx D - vx A. Let wy := vy D - vy A.

    Lemma tri_edge : forall i j u v, 0 <= u -> 0 <= v -> 0 <= 1 - u - v ->
      u = 0 \/ v = 0 \/ 1 - u - v = 0 ->
      well_in m i j (vx A + u * ux + v * wx) (vy A + u * uy + v * wy) ->
      exists k, In (i, j, k) w.
    Proof.
      intros i j u v U V S X W. assert (Mt0 : tiny < m) by lra.
      pose proof E as H. unfold calc_triangle_pos in H.
      apply bind_ok in H as (l & _ & H). apply bind_ok in H as (l1 & E1 & H).
      apply bind_ok in H as (l2 & E2 & H). apply bind_ok in H as (l3 & E3 & H).
      assert (w = l ++ l1 ++ l2 ++ l3) as -> by congruence.
      clear H. destruct X as [X|[X|X]].
      - destruct (edge_column m c a l3 i j (1 - v) Mt0 E3) as [k K]; auto; [lra| |].
        + eqw W; fold A D; rewrite X; unfold wx, wy; ring.
        + exists k. rewrite !in_app_iff. auto 6.
      - destruct (edge_column m a b l1 i j u Mt0 E1) as [k K]; auto; [lra| |].
        + eqw W; fold A B; rewrite X; unfold ux, uy; ring.
        + exists k. rewrite !in_app_iff. auto 6.
      - destruct (edge_column m b c l2 i j v Mt0 E2) as [k K]; auto; [lra| |].
        + assert (u = 1 - v) by lra. subst u.
          eqw W; fold B D; unfold ux, uy, wx, wy; ring.
        + exists k. rewrite !in_app_iff. auto 6.
    Qed.

    Lemma tri_out : forall i j u v u' v', 0 <= u -> 0 <= v -> 0 <= 1 - u - v ->
      u' < 0 \/ v' < 0 \/ 1 - u' - v' < 0 ->
      well_in m i j (vx A + u * ux + v * wx) (vy A + u * uy + v * wy) ->
      well_in m i j (vx A + u' * ux + v' * wx) (vy A + u' * uy + v' * wy) ->
      exists k, In (i, j, k) w.
    Proof.
      intros i j u v u' v' U V S O W W'.
      destruct (leave [(u, u'); (v, v'); (1 - u - v, 1 - u' - v')]) as (t & Ht & P & Z).
      - cbn [In]. intros x [<-|[<-|[<-|[]]]]; cbn; lra.
      - destruct O as [O|[O|O]]; [exists (u, u')|exists (v, v')|exists (1 - u - v, 1 - u' - v')];
          cbn [In snd]; auto 6.
      - pose proof (P (u, u') ltac:(cbn; auto)) as P1. pose proof (P (v, v') ltac:(cbn; auto)) as P2.
        pose proof (P (1 - u - v, 1 - u' - v') ltac:(cbn; auto)) as P3.
        cbn [fst snd] in P1, P2, P3.
        apply (tri_edge i j ((1 - t) * u + t * u') ((1 - t) * v + t * v')); try lra.
        + destruct Z as (x & [<-|[<-|[<-|[]]]] & Z); cbn [fst snd] in Z; lra.
        + eqw (well_in_between _ _ _ _ _ _ _ t Ht W W'); ring.
    Qed.

    Lemma tri_flat : ux * wy - uy * wx = 0 -> forall i j u v, 0 <= u -> 0 <= v -> u + v <= 1 ->
      well_in m i j (vx A + u * ux + v * wx) (vy A + u * uy + v * wy) -> exists k, In (i, j, k) w.
    Proof.
      intros F i j u v U V S W. destruct (parallel _ _ _ _ F) as (s & t & N & X & Y).
      destruct (get_out u v s t N) as (n & O); [lra|lra|].
      apply (tri_out i j u v (u + n * s) (v + n * t)); auto; [lra| |].
      - destruct (Rlt_dec (u + n * s) 0); [auto|]. destruct (Rlt_dec (v + n * t) 0); [auto|]. lra.
      - eqw W.
        + transitivity (vy A + u * uy + v * wy + n * (s * uy + t * wy)); [|rewrite Y]; ring.
        + transitivity (vx A + u * ux + v * wx + n * (s * ux + t * wx)); [|rewrite X]; ring.
    Qed.

    Lemma tri_column : let det := ux * wy - uy * wx in det <> 0 ->
      (1 < (1 - 2 * m) * ((Rabs wx + Rabs wy) / Rabs det) \/
       1 < (1 - 2 * m) * ((Rabs ux + Rabs uy) / Rabs det) \/
       1 < (1 - 2 * m) * ((Rabs (wx - ux) + Rabs (wy - uy)) / Rabs det)) \/
      (wide tol (wy / Rabs det) (wx / Rabs det) /\ wide tol (uy / Rabs det) (ux / Rabs det) /\
       wide tol ((wy - uy) / Rabs det) ((wx - ux) / Rabs det) /\
       5 * (tol + m) * Rabs det < 1) ->
      forall i j u v, 0 <= u -> 0 <= v -> u + v <= 1 ->
      well_in m i j (vx A + u * ux + v * wx) (vy A + u * uy + v * wy) -> exists k, In (i, j, k) w.
    Proof.
      intros det N SH i j u v U V UV W.
      set (x0 := IZR i - vx A). set (y0 := IZR j - vy A).
      set (p1 := (x0 * wy - y0 * wx) / det). set (p2 := (y0 * ux - x0 * uy) / det).
      set (a1 := wy / det). set (b1 := - wx / det). set (a2 := - uy / det). set (b2 := ux / det).
      assert (XE : forall x y, vx A + value p1 a1 b1 x y * ux + value p2 a2 b2 x y * wx = IZR i + x).
      { intros. unfold value, p1, a1, b1, p2, a2, b2, x0, y0.
        match goal with |- ?l = ?r => transitivity (vx A + (IZR i - vx A + x) * det / det) end.
        - unfold det. field. exact N.
        - field. exact N. }
      assert (YE : forall x y, vy A + value p1 a1 b1 x y * uy + value p2 a2 b2 x y * wy = IZR j + y).
      { intros. unfold value, p1, a1, b1, p2, a2, b2, x0, y0.
        match goal with |- ?l = ?r => transitivity (vy A + (IZR j - vy A + y) * det / det) end.
        - unfold det. field. exact N.
        - field. exact N. }
      assert (SE : forall x y, value (1 - p1 - p2) (- a1 - a2) (- b1 - b2) x y =
        1 - value p1 a1 b1 x y - value p2 a2 b2 x y) by (intros; unfold value; ring).
      assert (DEC : (exists x y, (x = -1 \/ x = 1) /\ (y = -1 \/ y = 1) /\
          let c1 := value p1 a1 b1 (x * (/ 2 - m)) (y * (/ 2 - m)) in
          let c2 := value p2 a2 b2 (x * (/ 2 - m)) (y * (/ 2 - m)) in
          (c1 < 0 \/ c2 < 0 \/ 1 - c1 - c2 < 0)) \/
        (forall x y, (x = -1 \/ x = 1) -> (y = -1 \/ y = 1) ->
          0 <= value p1 a1 b1 (x * (/ 2 - m)) (y * (/ 2 - m)) /\
          0 <= value p2 a2 b2 (x * (/ 2 - m)) (y * (/ 2 - m)) /\
          0 <= 1 - value p1 a1 b1 (x * (/ 2 - m)) (y * (/ 2 - m)) -
               value p2 a2 b2 (x * (/ 2 - m)) (y * (/ 2 - m)))).
      { assert (ONE : forall x y, (let c1 := value p1 a1 b1 x y in let c2 := value p2 a2 b2 x y in
            (c1 < 0 \/ c2 < 0 \/ 1 - c1 - c2 < 0)) \/
            (0 <= value p1 a1 b1 x y /\ 0 <= value p2 a2 b2 x y /\
             0 <= 1 - value p1 a1 b1 x y - value p2 a2 b2 x y)) by (intros; cbv zeta; lra).
        destruct (ONE (-1 * (/ 2 - m)) (-1 * (/ 2 - m))) as [O|O1]; [left; exists (-1), (-1); auto|].
        destruct (ONE (-1 * (/ 2 - m)) (1 * (/ 2 - m))) as [O|O2]; [left; exists (-1), 1; auto|].
        destruct (ONE (1 * (/ 2 - m)) (-1 * (/ 2 - m))) as [O|O3]; [left; exists 1, (-1); auto|].
        destruct (ONE (1 * (/ 2 - m)) (1 * (/ 2 - m))) as [O|O4]; [left; exists 1, 1; auto|].
        right. intros x y [->| ->] [->| ->]; assumption. }
      destruct DEC as [(x & y & X & Y & O)|IN].
      - apply (tri_out i j u v _ _ U V ltac:(lra) O W). rewrite XE, YE. apply well_in_corner; auto.
      - assert (AD : 0 < Rabs det) by (apply Rabs_pos_lt; exact N).
        assert (RD : Rabs (/ det) = / Rabs det) by (apply Rabs_inv).
        assert (AB : forall z, Rabs (z / det) = Rabs (z / Rabs det)).
        { intros z. unfold Rdiv. rewrite !Rabs_mult, Rabs_inv, Rabs_inv, Rabs_Rabsolu. reflexivity. }
        assert (G3 : a1 * b2 - b1 * a2 = / det).
        { transitivity (det / (det * det)); [|field; exact N].
          unfold a1, b1, a2, b2. unfold det at 5. field. exact N. }
        assert (OPP : forall z, - z / det = - (z / det)) by (intros; field; exact N).
        assert (DA : forall z, Rabs (z / det) = Rabs z / Rabs det).
        { intros z. unfold Rdiv. rewrite Rabs_mult, Rabs_inv. reflexivity. }
        assert (G3a : - a1 - a2 = - ((wy - uy) / det)) by (unfold a1, a2; field; exact N).
        assert (G3b : - b1 - b2 = (wx - ux) / det) by (unfold b1, b2; field; exact N).
        destruct SH as [SH|(R1 & R2 & R3 & S)].
        { exfalso.
          assert (H1 : forall x y, (x = -1 \/ x = 1) -> (y = -1 \/ y = 1) ->
            0 <= value p1 a1 b1 (x * (/ 2 - m)) (y * (/ 2 - m)) <= 1)
            by (intros x y X Y; pose proof (IN x y X Y); lra).
          assert (H2 : forall x y, (x = -1 \/ x = 1) -> (y = -1 \/ y = 1) ->
            0 <= value p2 a2 b2 (x * (/ 2 - m)) (y * (/ 2 - m)) <= 1)
            by (intros x y X Y; pose proof (IN x y X Y); lra).
          assert (H3 : forall x y, (x = -1 \/ x = 1) -> (y = -1 \/ y = 1) ->
            0 <= value (1 - p1 - p2) (- a1 - a2) (- b1 - b2) (x * (/ 2 - m)) (y * (/ 2 - m)) <= 1)
            by (intros x y X Y; rewrite SE; pose proof (IN x y X Y); lra).
          apply strip_holds in H1, H2, H3; auto. rewrite G3a, G3b in H3. unfold a1, b1, a2, b2 in H1, H2.
          rewrite !OPP, !Rabs_Ropp, !DA in H1, H2. rewrite !Rabs_Ropp, !DA in H3.
          unfold Rdiv in *. lra. }
        destruct (triangle_corner p1 a1 b1 p2 a2 b2 tol m T M) as (x & y & X & Y & L1 & L2 & L3).
        + intros x y X Y. rewrite SE. apply (IN x y X Y).
        + unfold wide, a1, b1 in *. rewrite OPP, Rabs_Ropp, !AB. exact R1.
        + unfold wide, a2, b2 in *. rewrite OPP, Rabs_Ropp, !AB. exact R2.
        + unfold wide in *.
          rewrite G3a, G3b, Rabs_Ropp, !AB. exact R3.
        + rewrite G3, RD. apply (Rmult_lt_reg_r (Rabs det)); [exact AD|].
          rewrite Rinv_l; [exact S|lra].
        + rewrite SE in L3. pose proof (XE (x / 2) (y / 2)) as X1. pose proof (YE (x / 2) (y / 2)) as Y1.
          set (c1 := value p1 a1 b1 (x / 2) (y / 2)) in *.
          set (c2 := value p2 a2 b2 (x / 2) (y / 2)) in *.
          set (i0 := if Req_EM_T x 1 then i else (i - 1)%Z).
          set (j0 := if Req_EM_T y 1 then j else (j - 1)%Z).
          assert (IE : IZR i + x / 2 = IZR i0 + / 2 /\ (i = i0 \/ i = i0 + 1)%Z).
          { unfold i0. destruct (Req_EM_T x 1) as [->|K]; [split; [lra|auto]|].
            destruct X as [->|X]; [|tauto]. rewrite minus_IZR. split; [lra|lia]. }
          assert (JE : IZR j + y / 2 = IZR j0 + / 2 /\ (j = j0 \/ j = j0 + 1)%Z).
          { unfold j0. destruct (Req_EM_T y 1) as [->|K]; [split; [lra|auto]|].
            destruct Y as [->|Y]; [|tauto]. rewrite minus_IZR. split; [lra|lia]. }
          destruct IE as [IE I0], JE as [JE J0]. rewrite IE in X1. rewrite JE in Y1.
          clear R1 R2 R3 IN XE YE SE G3 G3a G3b. clearbody c1 c2 i0 j0.
          pose proof E as H. unfold calc_triangle_pos in H. apply bind_ok in H as (l & EI & H).
          destruct (inner_fills g _ a b c [b; c] l EI Cxy) with (i0 := i0) (j0 := j0) (c1 := c1) (c2 := c2)
            (i := i) (j := j) as [k K]; auto.
          * apply in_triangle_iff. lra.
          * destruct (hull_axis3 (fun p => vx (ind g p)) a b c c1 c2 (IZR i0 + / 2)) as (p & q & P & Q & L);
              auto; try lra. exists p, q. cbn beta in L. pose proof tiny_pos. split; [exact P|]. split; [exact Q|]. split; lra.
          * destruct (hull_axis3 (fun p => vy (ind g p)) a b c c1 c2 (IZR j0 + / 2)) as (p & q & P & Q & L);
              auto; try lra. exists p, q. cbn beta in L. pose proof tiny_pos. split; [exact P|]. split; [exact Q|]. split; lra.
          * exists k. apply bind_ok in H as (l1 & _ & H).
            apply bind_ok in H as (l2 & _ & H). apply bind_ok in H as (l3 & _ & H).
            assert (w = l ++ l1 ++ l2 ++ l3) as -> by congruence.
            apply in_app_iff. auto.
    Qed.
  End Triangle.
End Surface.

(** ** The vertices *)
Lemma rect_vertices : forall (g : rgrid) tol fuel a b c d w,
  calc_rectangle_pos (K := FltR) g tol fuel a b c d = Ok w ->
  forall p, In p [a; b; c; d] -> In (cell_of (ind g p)) w.
Proof.
  intros g tol fuel a b c d w H p P. unfold calc_rectangle_pos in H.
  apply bind_ok in H as (l & _ & H). apply bind_ok in H as (l1 & E1 & H).
  apply bind_ok in H as (l2 & E2 & H). apply bind_ok in H as (l3 & E3 & H).
  apply bind_ok in H as (l4 & E4 & H). assert (w = l ++ l1 ++ l2 ++ l3 ++ l4) as -> by congruence.
  apply line_first in E1, E2, E3, E4. rewrite !in_app_iff.
  destruct P as [<-|[<-|[<-|[<-|[]]]]]; auto 6.
Qed.
Lemma tri_vertices : forall (g : rgrid) tol fuel a b c w,
  calc_triangle_pos (K := FltR) g tol fuel a b c = Ok w ->
  forall p, In p [a; b; c] -> In (cell_of (ind g p)) w.
Proof.
  intros g tol fuel a b c w H p P. unfold calc_triangle_pos in H.
  apply bind_ok in H as (l & _ & H). apply bind_ok in H as (l1 & E1 & H).
  apply bind_ok in H as (l2 & E2 & H). apply bind_ok in H as (l3 & E3 & H).
  assert (w = l ++ l1 ++ l2 ++ l3) as -> by congruence.
  apply line_first in E1, E2, E3. rewrite !in_app_iff.
  destruct P as [<-|[<-|[<-|[]]]]; auto 6.
Qed.

(** ** Surfaces, as stated *)
Lemma ind_side : forall (g : rgrid) p q, 0 < g_cell_xy g ->
  vx (ind g q) - vx (ind g p) = side_x g p q /\ vy (ind g q) - vy (ind g p) = side_y g p q.
Proof. intros g p q C. unfold ind, side_x, side_y. cbn [vx vy]. split; field; lra. Qed.

Lemma ind_point : forall (g : rgrid) a b d u v, 0 < g_cell_xy g ->
  let p := ind g (surface_point a b d u v) in
  vx p = vx (ind g a) + u * (vx (ind g b) - vx (ind g a)) + v * (vx (ind g d) - vx (ind g a)) /\
  vy p = vy (ind g a) + u * (vy (ind g b) - vy (ind g a)) + v * (vy (ind g d) - vy (ind g a)).
Proof.
  intros g a b d u v C. unfold ind, surface_point, vadd, vsub, vscale. cbn [vx vy]. split; field; lra.
Qed.

Lemma rectangle_full : forall (g : rgrid) tol fuel m e a b c d w,
  0 < g_cell_xy g -> 0 <= tol -> 0 <= e -> tiny + e < m -> m <= / 100 ->
  (forall p, In p [a; b; c; d] -> fair g p) ->
  Rabs (side_x g b c - side_x g a d) <= e -> Rabs (side_y g b c - side_y g a d) <= e ->
  rectangle_shape g tol m a b d ->
  calc_rectangle_pos (K := FltR) g tol fuel a b c d = Ok w -> full_rectangle g m a b d w.
Proof.
  intros g tol fuel m e a b c d w C T E0 Mt M F Ex Ey S E u v i j U V p W.
  destruct (ind_point g a b d u v C) as [Px Py]. fold p in Px, Py. rewrite Px, Py in W.
  assert (M' : 0 < m <= / 100) by (pose proof tiny_pos; lra).
  pose proof (F a ltac:(cbn; auto)) as Fa. pose proof (F b ltac:(cbn; auto)) as Fb.
  pose proof (F c ltac:(cbn; auto)) as Fc. pose proof (F d ltac:(cbn; auto)) as Fd.
  destruct (ind_side g b c C) as [X1 Y1]. destruct (ind_side g a d C) as [X2 Y2].
  destruct (ind_side g a b C) as [X3 Y3]. rewrite <- X1, <- X2 in Ex. rewrite <- Y1, <- Y2 in Ey.
  assert (Qx : Rabs (vx (ind g c) - (vx (ind g b) + vx (ind g d) - vx (ind g a))) <= e)
    by (eapply Rle_trans; [|exact Ex]; right; f_equal; ring).
  assert (Qy : Rabs (vy (ind g c) - (vy (ind g b) + vy (ind g d) - vy (ind g a))) <= e)
    by (eapply Rle_trans; [|exact Ey]; right; f_equal; ring).
  unfold rectangle_shape, span in S. rewrite <- X2, <- Y2, <- X3, <- Y3 in S.
  destruct S as [S|(S1 & S2 & S3 & S4)].
  - assert (S' : forall z, Rabs z = 0 -> z = 0).
    { intros z Z. destruct (Req_dec z 0) as [|N]; [auto|]. pose proof (Rabs_pos_lt z N). lra. }
    apply S' in S.
    eapply (rect_flat g tol fuel m e) with (u := u) (v := v); try eassumption; auto.
  - assert (S' : forall z, Rabs z <> 0 -> z <> 0) by (intros z Z ->; apply Z; apply Rabs_R0).
    apply S' in S1.
    eapply (rect_column g tol fuel m e) with (u := u) (v := v); try eassumption; auto.
Qed.

Lemma triangle_full : forall (g : rgrid) tol fuel m a b c w,
  0 < g_cell_xy g -> 0 <= tol -> tiny < m -> m <= / 100 ->
  (forall p, In p [a; b; c] -> fair g p) ->
  triangle_shape g tol m a b c ->
  calc_triangle_pos (K := FltR) g tol fuel a b c = Ok w -> full_triangle g m a b c w.
Proof.
  intros g tol fuel m a b c w C T Mt M F S E u v i j U V UV p W.
  destruct (ind_point g a b c u v C) as [Px Py]. fold p in Px, Py. rewrite Px, Py in W.
  assert (M' : 0 < m <= / 100) by (pose proof tiny_pos; lra).
  assert (Mt' : tiny + 0 < m) by lra.
  pose proof (F a ltac:(cbn; auto)) as Fa. pose proof (F b ltac:(cbn; auto)) as Fb.
  pose proof (F c ltac:(cbn; auto)) as Fc.
  destruct (ind_side g b c C) as [X1 Y1]. destruct (ind_side g c a C) as [X2 Y2].
  destruct (ind_side g a b C) as [X3 Y3]. destruct (ind_side g a c C) as [X4 Y4].
  destruct S as [S|S].
  - unfold span in S. rewrite <- X4, <- Y4, <- X3, <- Y3 in S.
    assert (S' : forall z, Rabs z = 0 -> z = 0).
    { intros z Z. destruct (Req_dec z 0) as [|N]; [auto|]. pose proof (Rabs_pos_lt z N). lra. }
    apply S' in S.
    eapply (tri_flat g tol fuel m 0) with (u := u) (v := v); try eassumption; auto; lra.
  - assert (S' : forall z, Rabs z <> 0 -> z <> 0) by (intros z Z ->; apply Z; apply Rabs_R0).
    assert (N : span g a b c <> 0) by (destruct S as [[N _]|[N _]]; exact N).
    assert (EQ : span g a b c = Rabs ((vx (ind g b) - vx (ind g a)) * (vy (ind g c) - vy (ind g a)) -
      (vy (ind g b) - vy (ind g a)) * (vx (ind g c) - vx (ind g a)))).
    { unfold span. rewrite X4, Y4, X3, Y3. reflexivity. }
    eapply (tri_column g tol fuel m 0) with (u := u) (v := v); try eassumption; auto; try lra.
    { apply S'. rewrite <- EQ. exact N. }
    rewrite <- EQ. set (D := span g a b c) in *. clearbody D.
    assert (OP : forall (z : R) y, (z - y) / D = - ((y - z) / D)) by (intros; field; exact N).
    assert (OA : forall z y : R, Rabs (z - y) = Rabs (y - z)) by (intros; apply Rabs_minus_sym).
    destruct S as [(_ & p' & q' & P & S)|(_ & S2 & S3)].
    + left. cbn [In] in P. destruct P as [P|[P|[P|[]]]]; injection P as <- <-.
      * right; left. rewrite X3, Y3. exact S.
      * right; right. rewrite <- X1, <- Y1 in S.
        replace (vx (ind g c) - vx (ind g a) - (vx (ind g b) - vx (ind g a))) with (vx (ind g c) - vx (ind g b)) by ring.
        replace (vy (ind g c) - vy (ind g a) - (vy (ind g b) - vy (ind g a))) with (vy (ind g c) - vy (ind g b)) by ring.
        exact S.
      * left. rewrite <- X2, <- Y2 in S.
        rewrite (OA (vx (ind g c))), (OA (vy (ind g c))). exact S.
    + right. pose proof (S3 a b ltac:(cbn; auto)) as W1. pose proof (S3 b c ltac:(cbn; auto)) as W2.
      pose proof (S3 c a ltac:(cbn; auto)) as W3. clear S3.
      rewrite <- X1, <- Y1 in W2. rewrite <- X2, <- Y2 in W3. rewrite <- X3, <- Y3 in W1.
      split; [|split; [|split]]; [|exact W1| |exact S2].
      * unfold wide in W3 |- *. rewrite (OP (vy (ind g c))), (OP (vx (ind g c))), !Rabs_Ropp. exact W3.
      * replace (vx (ind g c) - vx (ind g a) - (vx (ind g b) - vx (ind g a))) with (vx (ind g c) - vx (ind g b)) by ring.
        replace (vy (ind g c) - vy (ind g a) - (vy (ind g b) - vy (ind g a))) with (vy (ind g c) - vy (ind g b)) by ring.
        exact W2.
Qed.
