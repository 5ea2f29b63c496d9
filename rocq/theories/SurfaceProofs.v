(** Surfaces in exact arithmetic: the coefficients of the corners of the cells, and
    where the cells of a wall are. *)
From Coq Require Import Reals ZArith List Bool Lra Lia Psatz.
From Verif Require Import Outcome Base Flt FltR FltRFacts State ModelTypes ModelGeometry
  ModelBodyPos ModelRaster SpecGeo GeoProofs PoseProofs LineProofs LineCells InnerProofs.
Import ListNotations.
Open Scope R_scope.

Notation rcoeffs := (corner_coeffs (K := FltR)).

(** ** The linear system *)

(** Twice the area of the surface seen from above, in cells. *)
Definition det (u v : rvec) : R := vx u * vy v - vy u * vx v.

Lemma coeffs_eq : forall ab ad a mx my i j, rcoeffs ab ad a mx my i j =
  (vy ad / det ab ad * (IZR mx + / 2 + IZR i - vx a) - vx ad / det ab ad * (IZR my + / 2 + IZR j - vy a),
   - (vy ab / det ab ad) * (IZR mx + / 2 + IZR i - vx a) + vx ab / det ab ad * (IZR my + / 2 + IZR j - vy a)).
Proof.
  intros. unfold corner_coeffs, d_half; rred. unfold det.
  replace (1 / 2) with (/ 2) by field. reflexivity.
Qed.
Lemma coeffs_solve : forall ab ad a mx my i j c1 c2, det ab ad <> 0 ->
  (rcoeffs ab ad a mx my i j = (c1, c2) <->
   vx a + c1 * vx ab + c2 * vx ad = IZR mx + / 2 + IZR i /\
   vy a + c1 * vy ab + c2 * vy ad = IZR my + / 2 + IZR j).
Proof.
  intros ab ad a mx my i j c1 c2 H. rewrite coeffs_eq.
  generalize (IZR mx + / 2 + IZR i) (IZR my + / 2 + IZR j). intros p q.
  destruct ab as [bx b_y bz], ad as [dx dy dz], a as [ax ay az]. unfold det in *; simpl in *.
  split.
  - intros E. injection E as <- <-. split; field; auto.
  - intros [E1 E2]. f_equal; rewrite <- E1, <- E2; field; auto.
Qed.
Lemma coeffs_flat : forall ab ad a mx my i j, det ab ad = 0 ->
  rcoeffs ab ad a mx my i j = (0, 0).
Proof.
  intros. rewrite coeffs_eq, H. unfold Rdiv. rewrite Rinv_0. f_equal; ring.
Qed.

Lemma in_rectangle_iff : forall tol c1 c2,
  in_rectangle (K := FltR) tol (c1, c2) = true <->
  tol < c1 < 1 - tol /\ tol < c2 < 1 - tol.
Proof.
  intros. unfold in_rectangle; rred. rewrite !andb_true_iff, !Rltb_lt. lra.
Qed.
Lemma in_triangle_iff : forall tol c1 c2,
  in_triangle (K := FltR) tol (c1, c2) = true <->
  tol < c1 /\ tol < c2 /\ c1 + c2 < 1 - tol.
Proof.
  intros. unfold in_triangle, d1; rred. rewrite !andb_true_iff, !Rltb_lt. lra.
Qed.

(** ** Bounds *)
Definition box (lo hi p : rvec) : Prop :=
  vx lo <= vx p <= vx hi /\ vy lo <= vy p <= vy hi /\ vz lo <= vz p <= vz hi.
(** Cells less than one cell away from the box, along each axis. *)
Definition box_near (lo hi : rvec) (c : cell3) : Prop :=
  let '(i, j, k) := c in
  vx lo - 1 < IZR i < vx hi + 1 /\ vy lo - 1 < IZR j < vy hi + 1 /\
  vz lo - 1 < IZR k < vz hi + 1.

Lemma line_box : forall fuel lo hi p q, box lo hi p -> box lo hi q -> int_vec lo -> int_vec hi ->
  (line_fuel p q <= Z.of_nat fuel)%Z ->
  exists l, rline fuel p q = Ok l /\ l <> [] /\ forall c, In c l -> box_near lo hi c.
Proof.
  intros fuel lo hi p q (P1 & P2 & P3) (Q1 & Q2 & Q3) (L1 & L2 & L3) (H1 & H2 & H3) F.
  unfold int_range in *.
  assert (Ip : int_vec p) by (unfold int_vec, int_range; repeat split; lra).
  assert (Iq : int_vec q) by (unfold int_vec, int_range; repeat split; lra).
  destruct (line_spec fuel p q Ip Iq F) as (ks & W & E & N & _).
  exists (map (line_at p q) ((0, 0, 0)%Z :: ks)). split; [auto|].
  split; [discriminate|]. intros c Hc. apply in_map_iff in Hc. destruct Hc as (k & <- & Hk).
  specialize (N k Hk). destruct (line_at p q k) as [[i j] kz]. unfold cell_near in N. unfold box_near.
  pose proof tiny_pos. destruct N as (N1 & N2 & N3).
  assert (M : forall a b l h : R, l <= a <= h -> l <= b <= h -> l <= Rmin a b /\ Rmax a b <= h).
  { intros. unfold Rmin, Rmax. destruct (Rle_dec a b); lra. }
  destruct (M _ _ _ _ P1 Q1), (M _ _ _ _ P2 Q2), (M _ _ _ _ P3 Q3). repeat split; lra.
Qed.

Lemma smin_list_ge : forall l a m,
  m <= smin_list (K := FltR) a l <-> m <= a /\ forall x, In x l -> m <= x.
Proof.
  unfold smin_list. induction l as [|y l IH]; intros a m; cbn [fold_left].
  - split; [intros; split; auto; intros x []|tauto].
  - rewrite IH, smin_Rmin. split.
    + intros [H1 H2]. pose proof (Rmin_l a y); pose proof (Rmin_r a y).
      split; [lra|]. intros x [<-|Hx]; [lra|auto].
    + intros [H1 H2]. split; [|intros; apply H2; right; auto].
      apply Rmin_glb; auto. apply H2; left; auto.
Qed.
Lemma smax_Rmax : forall a b, smax (K := FltR) a b = Rmax a b.
Proof.
  intros a b. unfold smax, Rmax; rred. destruct (Rltb a b) eqn:E; rbool;
    destruct (Rle_dec a b); lra.
Qed.
Lemma smax_list_le : forall l a m,
  smax_list (K := FltR) a l <= m <-> a <= m /\ forall x, In x l -> x <= m.
Proof.
  unfold smax_list. induction l as [|y l IH]; intros a m; cbn [fold_left].
  - split; [intros; split; auto; intros x []|tauto].
  - rewrite IH, smax_Rmax. split.
    + intros [H1 H2]. pose proof (Rmax_l a y); pose proof (Rmax_r a y).
      split; [lra|]. intros x [<-|Hx]; [lra|auto].
    + intros [H1 H2]. split; [|intros; apply H2; right; auto].
      apply Rmax_lub; auto. apply H2; left; auto.
Qed.
Lemma smin_list_le : forall l a, smin_list (K := FltR) a l <= a.
Proof.
  intros l a. destruct (proj1 (smin_list_ge l a (smin_list (K := FltR) a l)) (Rle_refl _)); auto.
Qed.
Lemma smin_le_smax : forall l a, smin_list (K := FltR) a l <= smax_list (K := FltR) a l.
Proof.
  intros l a. pose proof (smin_list_le l a).
  pose proof (proj1 (smax_list_le l a (smax_list (K := FltR) a l)) ltac:(lra)). lra.
Qed.

(** Number of cells of a rectangle of cells. *)
Definition area_int (lo hi : rvec) : Prop :=
  4 * ((vx hi - vx lo + 2) * (vy hi - vy lo + 2)) <= 2147483647.

(** ** Inner cells *)
Section Inner.
  Variable g : rgrid.
  Variable tol : R.
  Hypothesis Htol : 0 <= tol.
  Notation ti := (to_ind g).

  Lemma marked_length : forall (inside : R * R -> bool) (a ab ad : rvec) x x' y y',
    (x <= x')%Z -> (y <= y')%Z ->
    (Z.of_nat (length (marked (K := FltR) inside a ab ad x x' y y')) <= (x' - x) * (y' - y))%Z.
  Proof.
    intros inside a ab ad x x' y y' Hx Hy. unfold marked.
    assert (L : length (flat_map (fun i => map (fun j => (i, j)) (zrange y y')) (zrange x x')) =
      (Z.to_nat (x' - x) * Z.to_nat (y' - y))%nat).
    { rewrite <- (zrange_length x x'). generalize (zrange x x'). intros l.
      induction l as [|i l IH]; [reflexivity|]. cbn [flat_map length].
      rewrite app_length, map_length, zrange_length, IH. lia. }
    assert (F : forall X (f : X -> bool) l, (length (filter f l) <= length l)%nat).
    { intros X f l. induction l as [|z l IH]; [auto|]. simpl. destruct (f z); simpl; lia. }
    pose proof (F _ (fun c => inside (coeffs_at (K := FltR) a ab ad x y c))
      (flat_map (fun i => map (fun j => (i, j)) (zrange y y')) (zrange x x'))) as Fl.
    rewrite L in Fl. nia.
  Qed.

  Lemma marked_in : forall inside (a ab ad : rvec) x x' y y' c,
    In c (marked (K := FltR) inside a ab ad x x' y y') <->
    inside (coeffs_at (K := FltR) a ab ad x y c) = true /\
    (x <= fst c < x')%Z /\ (y <= snd c < y')%Z.
  Proof.
    intros inside a ab ad x x' y y' [i j]. unfold marked. rewrite filter_In, in_flat_map.
    cbn [fst snd]. split.
    - intros [(i' & Hi & H) E]. apply in_map_iff in H. destruct H as (j' & E' & Hj).
      injection E' as -> ->. rewrite in_zrange in *. auto.
    - intros (E & Hi & Hj). split; [|auto]. exists i. rewrite in_zrange. split; [auto|].
      apply in_map. apply in_zrange. auto.
  Qed.

  Lemma collect_ok : forall (a ab ad : rvec) x y lo hi l,
    int_range lo -> int_range hi ->
    (forall c, In c l -> lo <= surface_z (K := FltR) a ab ad x y c <= hi) ->
    exists r, collect (K := FltR) a ab ad x y l = Ok r /\
      (forall c, In c r -> exists d, In d l /\ exists k,
         In c (four d k) /\ k = zceil (surface_z (K := FltR) a ab ad x y d)).
  Proof.
    intros a ab ad x y lo hi l [L1 L2] [H1 H2]. induction l as [|d l IH]; intros H.
    - exists []. split; [reflexivity|]. intros c [].
    - destruct IH as (r & E & B); [intros; apply H; right; auto|].
      cbn [collect]. rred. rewrite s_int_IZR.
      specialize (H d (or_introl eq_refl)). pose proof (zceil_spec (surface_z (K := FltR) a ab ad x y d)) as Z0.
      rewrite (between_int lo hi) by (unfold int_range; lra). cbn [bind]. rewrite E. cbn [bind].
      eexists; split; [reflexivity|]. intros c Hc. apply in_app_or in Hc. destruct Hc as [Hc|Hc].
      + exists d. split; [left; auto|]. eexists; split; [exact Hc|reflexivity].
      + destruct (B c Hc) as (d' & Hd & k & K1 & K2). exists d'; split; [right; auto|]. eauto.
  Qed.

  (** Inner cells of a surface with the vertices [a :: others] in a box, when the
      points kept by [inside] have a height in the box. *)
  Lemma inner_box : forall inside (a b d : rvec) others lo hi,
    (forall p, In p (a :: others) -> box lo hi (ti p)) ->
    int_vec lo -> int_vec hi -> area_int lo hi ->
    (forall c1 c2, inside (c1, c2) = true ->
       vz lo <= vz (ti a) + c1 * ((vz b - vz a) / g_cell_z g) + c2 * ((vz d - vz a) / g_cell_z g)
             <= vz hi) ->
    exists l, surface_inner (K := FltR) g inside a b d others = Ok l /\
      forall c, In c l -> box_near lo hi c.
  Proof.
    intros inside a b d others lo hi HB Il Ih HA HZ.
    unfold surface_inner. rred.
    set (mx := smin_list (K := FltR) (vx (ti a)) (map vx (map ti others))).
    set (Mx := smax_list (K := FltR) (vx (ti a)) (map vx (map ti others))).
    set (my := smin_list (K := FltR) (vy (ti a)) (map vy (map ti others))).
    set (My := smax_list (K := FltR) (vy (ti a)) (map vy (map ti others))).
    repeat match goal with
      | |- context [zfloor (@smin_list ?k (vx ?p) ?l)] => change (@smin_list k (vx p) l) with mx
      | |- context [zfloor (@smin_list ?k (vy ?p) ?l)] => change (@smin_list k (vy p) l) with my
      | |- context [zceil (@smax_list ?k (vx ?p) ?l)] => change (@smax_list k (vx p) l) with Mx
      | |- context [zceil (@smax_list ?k (vy ?p) ?l)] => change (@smax_list k (vy p) l) with My
      end.
    assert (Bx : vx lo <= mx /\ mx <= Mx /\ Mx <= vx hi).
    { split; [|split; [apply smin_le_smax|]].
      - apply smin_list_ge. split; [apply (HB a); left; auto|]. intros x Hx.
        rewrite map_map in Hx. apply in_map_iff in Hx. destruct Hx as (p & <- & Hp).
        apply (HB p); right; auto.
      - apply smax_list_le. split; [apply (HB a); left; auto|]. intros x Hx.
        rewrite map_map in Hx. apply in_map_iff in Hx. destruct Hx as (p & <- & Hp).
        apply (HB p); right; auto. }
    assert (By : vy lo <= my /\ my <= My /\ My <= vy hi).
    { split; [|split; [apply smin_le_smax|]].
      - apply smin_list_ge. split; [apply (HB a); left; auto|]. intros x Hx.
        rewrite map_map in Hx. apply in_map_iff in Hx. destruct Hx as (p & <- & Hp).
        apply (HB p); right; auto.
      - apply smax_list_le. split; [apply (HB a); left; auto|]. intros x Hx.
        rewrite map_map in Hx. apply in_map_iff in Hx. destruct Hx as (p & <- & Hp).
        apply (HB p); right; auto. }
    clearbody mx Mx my My.
    destruct Il as (Lx & Ly & Lz), Ih as (Hx & Hy & Hz).
    pose proof (zfloor_spec mx) as Fx. pose proof (zceil_spec Mx) as Cx.
    pose proof (zfloor_spec my) as Fy. pose proof (zceil_spec My) as Cy.
    rewrite !s_int_IZR.
    rewrite (between_int (vx lo) (vx hi) (zfloor mx)) by (auto; lra).
    rewrite (between_int (vx lo) (vx hi) (zceil Mx)) by (auto; lra).
    rewrite (between_int (vy lo) (vy hi) (zfloor my)) by (auto; lra).
    rewrite (between_int (vy lo) (vy hi) (zceil My)) by (auto; lra).
    cbn [bind].
    assert (Dx : (0 <= zceil Mx - zfloor mx)%Z) by (apply le_IZR; rewrite minus_IZR; lra).
    assert (Dy : (0 <= zceil My - zfloor my)%Z) by (apply le_IZR; rewrite minus_IZR; lra).
    assert (DA : (4 * ((zceil Mx - zfloor mx) * (zceil My - zfloor my)) <= 2147483647)%Z).
    { apply le_IZR. rewrite mult_IZR, mult_IZR, !minus_IZR. unfold area_int in HA.
      eapply Rle_trans; [|exact HA]. apply Rmult_le_compat_l; [lra|].
      apply Rmult_le_compat; try lra; rewrite <- minus_IZR; apply IZR_le; lia. }
    assert (NX : (zceil Mx - zfloor mx <= 2147483647)%Z \/ (zceil My - zfloor my = 0)%Z) by nia.
    assert (DXW : (zceil Mx - zfloor mx <= 2147483647)%Z).
    { assert (E : (vx hi - vx lo + 2) * 2 * 4 <= 2147483647).
      { unfold area_int in HA. assert (2 <= vy hi - vy lo + 2) by lra. nra. }
      apply le_IZR. rewrite minus_IZR. lra. }
    assert (DYW : (zceil My - zfloor my <= 2147483647)%Z).
    { assert (E : (vy hi - vy lo + 2) * 2 * 4 <= 2147483647).
      { unfold area_int in HA. assert (2 <= vx hi - vx lo + 2) by lra. nra. }
      apply le_IZR. rewrite minus_IZR. lra. }
    unfold chk_int at 1 2. rewrite !int_ok_range by lia. cbn [bind].
    set (ab := mkVec (vx (vmap2 Rminus b a) / g_cell_xy g) (vy (vmap2 Rminus b a) / g_cell_xy g)
                     (vz (vmap2 Rminus b a) / g_cell_z g)).
    set (ad := mkVec (vx (vmap2 Rminus d a) / g_cell_xy g) (vy (vmap2 Rminus d a) / g_cell_xy g)
                     (vz (vmap2 Rminus d a) / g_cell_z g)).
    pose proof (decompose_count (K := FltR) inside (ti a) ab ad (zfloor mx) (zceil Mx) (zfloor my) (zceil My)) as N.
    pose proof (fill_inner_eq (K := FltR) inside (ti a) ab ad (zfloor mx) (zceil Mx) (zfloor my) (zceil My)) as FE.
    match goal with |- context [fill_inner _ _ ?a1 ?a2 ?a3 _ _ _ _ _] =>
      change a1 with (ti a); change a2 with ab; change a3 with ad end.
    match goal with |- context [@decompose ?k ?f ?a1 ?a2 ?a3 ?a4 ?a5 ?a6 ?a7] =>
      change (@decompose k f a1 a2 a3 a4 a5 a6 a7) with
        (decompose (K := FltR) inside ab ad (ti a) (zfloor mx) (zfloor my)
           (zceil Mx - zfloor mx) (zceil My - zfloor my)) end.
    destruct (decompose (K := FltR) inside ab ad (ti a) (zfloor mx) (zfloor my) (zceil Mx - zfloor mx)
                (zceil My - zfloor my)) as [[cs ins] n] eqn:D.
    cbn [snd] in N. rewrite N in FE |- *.
    pose proof (marked_length inside (ti a) ab ad (zfloor mx) (zceil Mx) (zfloor my) (zceil My) ltac:(lia) ltac:(lia)) as ML.
    unfold chk_int. rewrite int_ok_range by lia. cbn [bind]. rewrite FE.
    destruct (collect_ok (ti a) ab ad (zfloor mx) (zfloor my) (vz lo) (vz hi)
                (marked (K := FltR) inside (ti a) ab ad (zfloor mx) (zceil Mx) (zfloor my) (zceil My)))
      as (r & E & B); auto.
    { intros c Hc. apply marked_in in Hc. destruct Hc as (I & _). unfold surface_z.
      destruct (coeffs_at (K := FltR) (ti a) ab ad (zfloor mx) (zfloor my) c) as [c1 c2].
      specialize (HZ c1 c2 I). cbn [fst snd]. rred. unfold ab, ad. cbn [vz]. destruct b, a, d; exact HZ. }
    exists r. split; [exact E|]. intros c Hc. destruct (B c Hc) as ([i j] & Hd & k & Hk & Ek).
    pose proof Hd as Hd0.
    apply marked_in in Hd. cbn [fst snd] in Hd. destruct Hd as (I & Ri & Rj).
    assert (Zb : vz lo <= surface_z (K := FltR) (ti a) ab ad (zfloor mx) (zfloor my) (i, j) <= vz hi).
    { unfold surface_z.
      destruct (coeffs_at (K := FltR) (ti a) ab ad (zfloor mx) (zfloor my) (i, j)) as [c1 c2].
      specialize (HZ c1 c2 I). cbn [fst snd]. rred. unfold ab, ad. cbn [vz]. destruct b, a, d; exact HZ. }
    pose proof (zceil_spec (surface_z (K := FltR) (ti a) ab ad (zfloor mx) (zfloor my) (i, j))) as CZ.
    rewrite <- Ek in CZ. clear Ek.
    assert (X1 : IZR (zfloor mx) <= IZR i) by (apply IZR_le; lia).
    assert (X2 : IZR i + 1 <= IZR (zceil Mx)) by (rewrite <- plus_IZR; apply IZR_le; lia).
    assert (Y1 : IZR (zfloor my) <= IZR j) by (apply IZR_le; lia).
    assert (Y2 : IZR j + 1 <= IZR (zceil My)) by (rewrite <- plus_IZR; apply IZR_le; lia).
    unfold box_near. cbn [four In] in Hk.
    destruct Hk as [<-|[<-|[<-|[<-|[]]]]]; rewrite ?plus_IZR; repeat split; lra.
  Qed.
End Inner.
