(** Lemmas behind PropertiesGeometry.v that combine the other files, a concrete grid
    and a concrete body. *)
From Coq Require Import Reals ZArith List Bool Lra Lia Psatz.
From Verif Require Import Outcome Base Flt FltR FltRFacts State ModelTypes ModelGeometry
  ModelBodyPos ModelRaster SpecGeo GeoProofs PoseProofs TypesProofs LineProofs LineCells InnerProofs
  SurfaceProofs RasterProofs InsideProofs.
Import ListNotations.
Open Scope R_scope.

(** ** A concrete grid, body and pose *)
Definition demo_g : rgrid := grid_of 4 4 4 (/ 10) (/ 10).
Definition demo_b : rbody :=
  @mkGBody FltR (mkVec 0 0 0) (mkVec 0 0 (- / 2)) (mkVec (7 / 10) 0 (- / 2)) (/ 2) v0 (mkQuat 1 0 0 0).
Definition demo_ori : rquat := mkQuat 1 0 1 0.
Definition demo_pos : rvec := mkVec (/ 4) 0 (/ 3).
Definition demo_tol : R := / 100000.

Lemma demo_half : g_half_x demo_g = 40%Z /\ g_half_y demo_g = 40%Z /\ g_half_z demo_g = 40%Z.
Proof.
  cbn. assert (E : zround (4 / / 10) = 40%Z).
  { replace (4 / / 10) with (IZR 40) by field. apply zround_IZR. }
  rewrite E. auto.
Qed.
Lemma demo_fits : grid_fits demo_g.
Proof.
  destruct demo_half as (X & Y & Z). unfold grid_fits. rewrite X, Y, Z.
  repeat split; try lia; cbn; lra.
Qed.
Lemma demo_cells : g_cell_xy demo_g = / 10 /\ g_cell_z demo_g = / 10.
Proof. split; reflexivity. Qed.
Lemma demo_ori_nz : demo_ori <> qzero.
Proof. intros E. apply (f_equal qw) in E. cbn in E. lra. Qed.
Lemma demo_triangle : triangle (j_init demo_b) (b_init demo_b) (t_init demo_b).
Proof. intros E. apply (f_equal vy) in E. cbn in E. lra. Qed.
Lemma demo_normal : normal (j_init demo_b) (b_init demo_b) (t_init demo_b) = mkVec 0 (-1) 0.
Proof.
  rewrite normal_form.
  replace (cross (vsub (b_init demo_b) (j_init demo_b)) (vsub (t_init demo_b) (j_init demo_b)))
    with (mkVec 0 (- (7 / 20)) 0) by (apply vec_eq; cbn; lra).
  assert (L : vlen (mkVec 0 (- (7 / 20)) 0) = 7 / 20).
  { unfold vlen, dot; cbn [vx vy vz].
    replace (0 * 0 + - (7 / 20) * - (7 / 20) + 0 * 0) with ((7 / 20) * (7 / 20)) by ring.
    apply sqrt_square; lra. }
  rewrite L. apply vec_eq; cbn [vscale vx vy vz]; lra.
Qed.
Lemma vlen_le_1 : forall v, dot v v <= 1 -> vlen v <= 1.
Proof. intros v H. unfold vlen. rewrite <- sqrt_1. apply sqrt_le_1_alt; auto. Qed.
Lemma demo_radius : radius_le demo_b 1.
Proof.
  intros p Hp. apply vlen_le_1. unfold own_corners in Hp. rewrite demo_normal in Hp.
  cbn [corner_list j_r j_l b_r b_l t_r t_l] in Hp.
  destruct Hp as [<-|[<-|[<-|[<-|[<-|[<-|[]]]]]]]; unfold dot, vadd, vsub, vscale; cbn; lra.
Qed.
Lemma demo_inside : ball_inside demo_g (3 / 2) demo_pos.
Proof.
  unfold ball_inside. destruct demo_half as (X & Y & Z). rewrite X, Y, Z.
  destruct demo_cells as [-> ->]. cbn [demo_pos vx vy vz]. unfold Rdiv. rewrite Rinv_inv.
  repeat split; lra.
Qed.

(** ** The index of the centre of a cell (C36) *)
Lemma index_centre : forall sx sy sz cxy cz, sizes_ok sx sy sz cxy cz -> fits sx cxy -> fits sy cxy ->
  let g := grid_of sx sy sz cxy cz in
  ~ half_integer (sx / cxy) -> ~ half_integer (sy / cxy) ->
  forall i j, (0 <= i <= 2 * g_half_x g)%Z -> (0 <= j <= 2 * g_half_y g)%Z ->
  cell_index (K := FltR) (g_half_x g) (g_cell_xy g) (at_ (K := FltR) (g_vect_x g) i) = Ok i /\
  cell_index (K := FltR) (g_half_y g) (g_cell_xy g) (at_ (K := FltR) (g_vect_y g) j) = Ok j.
Proof.
  intros sx sy sz cxy cz H Fx Fy g Nx Ny i j Hi Hj.
  destruct (grid_of_spec _ _ _ _ _ H) as (_ & _ & _ & _ & Vx & Vy & _). fold g in Vx, Vy.
  assert (C : 0 < cxy) by (destruct H as (A & B & _); lra).
  assert (P : forall s n v, fits s cxy -> ~ half_integer (s / cxy) -> v = - s + IZR n * cxy ->
     (0 <= n <= 2 * zround (s / cxy))%Z ->
     cell_index (K := FltR) (zround (s / cxy)) cxy v = Ok n).
  { intros s n v F N -> R. unfold cell_index. cbn [FltR wid dround].
    assert (E : zround ((- s + IZR n * cxy) / cxy + IZR (zround (s / cxy))) = n).
    { apply zround_unique. pose proof (zround_strict _ N) as S.
      replace ((- s + IZR n * cxy) / cxy) with (IZR n - s / cxy) by (field; lra). lra. }
    pose proof (d_int_IZR n) as D. unfold fits in F. rewrite int_ok_range in D by lia.
    rewrite <- E in D at 1. exact D. }
  split.
  - apply P; auto. apply (Vx i Hi).
  - apply P; auto. apply (Vy j Hj).
Qed.

(** ** Lines (C39) *)
(** Points on the border of a cell or close to it. *)
Lemma line_end : forall fuel p q, int_vec p -> int_vec q -> (line_fuel p q <= Z.of_nat fuel)%Z ->
  exists l, rline fuel p q = Ok l /\ forall d, last l d = line_at p q (n_x p q, n_y p q, n_z p q).
Proof.
  intros fuel p q P Q F. destruct (line_spec fuel p q P Q F) as (ks & W & E & _).
  eexists; split; [exact E|]. intros d. rewrite (last_map _ _ _ _ _ _ (0, 0, 0)%Z).
  rewrite (walk_last _ _ _ _ W). reflexivity.
Qed.
Definition near_border : rvec := mkVec (/ 2 + tiny / 2) 0 (- / 2).
Lemma near_border_round : zround (/ 2 + tiny / 2) = 1%Z.
Proof. apply zround_unique. pose proof tiny_pos. lra. Qed.
Lemma not_half : forall x n, IZR n - / 2 < x < IZR n + / 2 -> ~ half_integer x.
Proof.
  intros x n H [m E]. subst x. assert (n - 1 < m)%Z by (apply lt_IZR; rewrite minus_IZR; lra).
  assert (m < n)%Z by (apply lt_IZR; lra). lia.
Qed.
Lemma not_int : forall x n, IZR n < x < IZR n + 1 -> ~ integer x.
Proof.
  intros x n H [m E]. subst x. assert (n < m)%Z by (apply lt_IZR; lra).
  assert (m < n + 1)%Z by (apply lt_IZR; rewrite plus_IZR; lra). lia.
Qed.
Lemma near_border_off : off_border near_border.
Proof.
  pose proof tiny_pos. unfold off_border, near_border; cbn [vx vy vz]. split; [|split].
  - apply (not_half _ 1). lra.
  - apply (not_half _ 0). lra.
  - apply (not_int _ (-1)). lra.
Qed.
Lemma int_small : forall x, -10 <= x <= 10 -> int_range x.
Proof. unfold int_range; intros; lra. Qed.
Lemma up_same : forall a, up_ a a = false.
Proof. intros a. unfold up_. apply Rltb_ge. lra. Qed.
Lemma near_border_line : forall fuel, (1 <= fuel)%nat ->
  exists l, rline fuel near_border near_border = Ok l /\
    (forall d, last l d = (0, 0, 0)%Z) /\ cell_of near_border = (1, 0, 0)%Z.
Proof.
  intros fuel F. pose proof tiny_pos as T.
  assert (I : int_vec near_border).
  { unfold near_border, int_vec; cbn [vx vy vz]. repeat split; lra. }
  destruct near_border_off as (Bx & By & Bz).
  assert (Z0 : zround 0 = 0%Z) by apply (zround_IZR 0).
  assert (C0 : zceil (- / 2) = 0%Z) by (apply zceil_unique; lra).
  assert (NX : n_x near_border near_border = 1%Z).
  { unfold n_x. rewrite up_same, span_same, off_xy_eq by auto. cbn [near_border vx].
    rewrite near_border_round. unfold crossings.
    replace (tiny - (/ 2 + tiny / 2 - 1 + / 2)) with (tiny / 2) by field.
    rewrite (zceil_unique _ 1) by lra. reflexivity. }
  assert (NY : n_y near_border near_border = 0%Z).
  { unfold n_y. rewrite up_same, span_same, off_xy_eq by auto. cbn [near_border vy].
    rewrite Z0. unfold crossings. rewrite (zceil_unique _ 0) by lra. reflexivity. }
  assert (NZ : n_z near_border near_border = 0%Z).
  { unfold n_z. rewrite up_same, span_same, off_z_eq by auto. cbn [near_border vz].
    rewrite C0. unfold crossings. rewrite (zceil_unique _ 0) by lra. reflexivity. }
  destruct (line_end fuel near_border near_border I I) as (l & E & L).
  { unfold line_fuel. rewrite NX, NY, NZ. lia. }
  exists l. split; [exact E|]. split.
  - intros d. rewrite L, NX, NY, NZ. unfold line_at. rewrite !up_same. unfold shifted, sgn.
    cbn [near_border vx vy vz].
    rewrite (zround_unique _ 0) by lra. rewrite (zround_unique _ 0) by lra.
    rewrite (zceil_unique _ 0) by lra. reflexivity.
  - unfold cell_of. cbn [near_border vx vy vz]. rewrite near_border_round, Z0, C0. reflexivity.
Qed.
Definition on_border : rvec := mkVec (3 / 2) 0 (- / 2).
Definition past_border : rvec := mkVec (2 / 5) 0 (- / 2).
Lemma on_border_line : forall fuel, (1 <= fuel)%nat ->
  exists l, rline fuel on_border past_border = Ok l /\
    (forall d, last l d = (1, 0, 0)%Z) /\ cell_of past_border = (0, 0, 0)%Z.
Proof.
  intros fuel F. pose proof tiny_pos as T.
  assert (I : int_vec on_border) by (unfold on_border, int_vec; cbn [vx vy vz]; repeat split; lra).
  assert (J : int_vec past_border) by (unfold past_border, int_vec; cbn [vx vy vz]; repeat split; lra).
  assert (Z0 : zround 0 = 0%Z) by apply (zround_IZR 0).
  assert (C0 : zceil (- / 2) = 0%Z) by (apply zceil_unique; lra).
  assert (UX : up_ (3 / 2) (2 / 5) = false) by (unfold up_; apply Rltb_ge; lra).
  assert (NX : n_x on_border past_border = 1%Z).
  { unfold n_x. cbn [on_border past_border vx]. rewrite UX, off_xy_half, span_down by
      (try lra; exists 1%Z; lra).
    unfold crossings. rewrite (zceil_unique _ 1) by lra. reflexivity. }
  assert (NY : n_y on_border past_border = 0%Z).
  { unfold n_y. cbn [on_border past_border vy]. rewrite up_same, span_same, off_xy_eq
      by (apply (not_half _ 0); lra).
    rewrite Z0. unfold crossings. rewrite (zceil_unique _ 0) by lra. reflexivity. }
  assert (NZ : n_z on_border past_border = 0%Z).
  { unfold n_z. cbn [on_border past_border vz]. rewrite up_same, span_same, off_z_eq
      by (apply (not_int _ (-1)); lra).
    rewrite C0. unfold crossings. rewrite (zceil_unique _ 0) by lra. reflexivity. }
  destruct (line_end fuel on_border past_border I J) as (l & E & L).
  { unfold line_fuel. rewrite NX, NY, NZ. lia. }
  exists l. split; [exact E|]. split.
  - intros d. rewrite L, NX, NY, NZ. unfold line_at. cbn [on_border past_border vx vy vz].
    rewrite UX, !up_same. unfold shifted, sgn.
    replace (3 / 2 + -1 * 1) with (IZR 0 + / 2) by lra. rewrite zround_half_pos by lia.
    rewrite (zround_unique _ 0) by lra. rewrite (zceil_unique _ 0) by lra. reflexivity.
  - unfold cell_of. cbn [past_border vx vy vz]. rewrite (zround_unique _ 0) by lra.
    rewrite Z0, C0. reflexivity.
Qed.

(** A line inside the grid. *)
Definition demo_p : rvec := mkVec (/ 4) (2 / 3) (/ 3).
Definition demo_q : rvec := mkVec 5 (-2) (7 / 3).
Lemma demo_line : clear_line demo_p demo_q /\ int_vec demo_p /\ int_vec demo_q /\
  cell_dist (cell_of demo_p) (cell_of demo_q) = 10%Z.
Proof.
  assert (A1 : ~ half_integer (/ 4)) by (apply (not_half _ 0); lra).
  assert (A2 : ~ half_integer 5) by (apply (not_half _ 5); lra).
  assert (A3 : ~ half_integer (2 / 3)) by (apply (not_half _ 1); lra).
  assert (A4 : ~ half_integer (-2)) by (apply (not_half _ (-2)); lra).
  assert (A5 : ~ integer (/ 3)) by (apply (not_int _ 0); lra).
  assert (A6 : ~ integer (7 / 3)) by (apply (not_int _ 2); lra).
  split; [|split; [|split]].
  - unfold clear_line, clear_xy, clear_z, demo_p, demo_q; cbn [vx vy vz].
    repeat split; auto; intros; lra.
  - unfold demo_p, int_vec, int_range; cbn [vx vy vz]. repeat split; lra.
  - unfold demo_q, int_vec, int_range; cbn [vx vy vz]. repeat split; lra.
  - unfold cell_of, cell_dist, demo_p, demo_q; cbn [vx vy vz].
    rewrite (zround_unique (/ 4) 0) by lra. rewrite (zround_unique 5 5) by lra.
    rewrite (zround_unique (2 / 3) 1) by lra. rewrite (zround_unique (-2) (-2)) by lra.
    rewrite (zceil_unique (/ 3) 1) by lra. rewrite (zceil_unique (7 / 3) 3) by lra. reflexivity.
Qed.

(** ** Surfaces (C40) *)
Section Decompose.
  Context {K : flt}.
  Variables (inside : sf K * sf K -> bool) (ab ad a : vec (sf K)).
  Variables (min_x max_x min_y max_y : Z).
  Let dec := decompose inside ab ad a min_x min_y (max_x - min_x) (max_y - min_y).
  Let cs := fst (fst dec).
  Let ins := snd (fst dec).

  Lemma decompose_entry : forall i j, (0 <= i < max_x - min_x)%Z -> (0 <= j < max_y - min_y)%Z ->
    entry (s0, s0) cs i j = corner_coeffs ab ad a min_x min_y i j /\
    entry false ins i j = inside (corner_coeffs ab ad a min_x min_y i j).
  Proof.
    intros i j Hi Hj. unfold cs, ins, dec, decompose; cbn [fst snd]. split.
    - rewrite entry_eq; auto.
    - rewrite map_map.
      rewrite (map_ext _ (fun i => map (fun j => inside (corner_coeffs ab ad a min_x min_y i j))
                              (zrange 0 (max_y - min_y)))) by (intros; apply map_map).
      rewrite (entry_eq (fun i j => inside (corner_coeffs ab ad a min_x min_y i j))); auto.
  Qed.

  (** The corners marked, as positions in the two arrays. *)
  Definition marks : list (Z * Z) :=
    filter (fun c => entry false ins (fst c) (snd c))
      (list_prod (zrange 0 (max_x - min_x)) (zrange 0 (max_y - min_y))).

  Lemma in_zrange0 : forall n x, In x (zrange 0 n) <-> (0 <= x < n)%Z.
  Proof. intros. rewrite in_zrange. lia. Qed.

  Lemma list_prod_flat : forall X Y (l : list X) (m : list Y),
    list_prod l m = flat_map (fun x => map (fun y => (x, y)) m) l.
  Proof. reflexivity || (induction l; intros; cbn; [auto|f_equal; auto]). Qed.

  Lemma marked_marks :
    marked inside a ab ad min_x max_x min_y max_y =
    map (fun c => (min_x + fst c, min_y + snd c)%Z) marks.
  Proof.
    unfold marked, marks.
    assert (E : flat_map (fun i => map (fun j => (i, j)) (zrange min_y max_y)) (zrange min_x max_x)
      = map (fun c => (min_x + fst c, min_y + snd c)%Z)
          (list_prod (zrange 0 (max_x - min_x)) (zrange 0 (max_y - min_y)))).
    { rewrite (zrange_shift min_x), (zrange_shift min_y).
      induction (zrange 0 (max_x - min_x)) as [|x l IH]; [reflexivity|].
      cbn [map flat_map list_prod]. rewrite map_app, <- IH. f_equal.
      rewrite !map_map. apply map_ext. reflexivity. }
    rewrite E. clear E.
    assert (P : forall c, In c (list_prod (zrange 0 (max_x - min_x)) (zrange 0 (max_y - min_y))) ->
      inside (coeffs_at a ab ad min_x min_y (min_x + fst c, min_y + snd c)%Z) =
      entry false ins (fst c) (snd c)).
    { intros [x y] H. apply in_prod_iff in H. rewrite !in_zrange0 in H. cbn [fst snd].
      rewrite (proj2 (decompose_entry x y (proj1 H) (proj2 H))). unfold coeffs_at; cbn [fst snd].
      do 2 f_equal; lia. }
    revert P. generalize (list_prod (zrange 0 (max_x - min_x)) (zrange 0 (max_y - min_y))).
    induction l as [|c l IH]; intros P; [reflexivity|]. cbn [map filter].
    rewrite P by (left; auto). rewrite IH by (intros; apply P; right; auto).
    destruct (entry false ins (fst c) (snd c)); reflexivity.
  Qed.
  Lemma decompose_total : snd dec = (4 * Z.of_nat (length marks))%Z.
  Proof.
    unfold dec. rewrite (decompose_count inside a ab ad min_x max_x min_y max_y).
    rewrite marked_marks, map_length. reflexivity.
  Qed.

  (** The list of the inner cells: four cells around every marked corner, at the
      height of the surface. *)
  Definition corner_z (c : Z * Z) : sf K :=
    (vz a +! fst (entry (s0, s0) cs (fst c) (snd c)) *! vz ab
          +! snd (entry (s0, s0) cs (fst c) (snd c)) *! vz ad)%flt.
  Lemma collect_spec : forall l r, collect a ab ad min_x min_y l = Ok r ->
    length r = (4 * length l)%nat /\
    forall x, In x r <-> exists c k, In c l /\
       s_int (sceil (surface_z a ab ad min_x min_y c)) = Ok k /\ In x (four c k).
  Proof.
    induction l as [|c l IH]; intros r H; cbn [collect] in H.
    - injection H as <-. split; [reflexivity|]. intros x; split; [intros []|].
      intros (c & k & [] & _).
    - destruct (s_int (sceil (surface_z a ab ad min_x min_y c))) as [k| |] eqn:E; try discriminate.
      cbn [bind] in H. destruct (collect a ab ad min_x min_y l) as [r'| |] eqn:E'; try discriminate.
      cbn [bind] in H. injection H as <-. destruct (IH r' eq_refl) as [L I]. split.
      + rewrite app_length, L. destruct c. cbn [length four]. lia.
      + intros x. rewrite in_app_iff, I. split.
        * intros [H|(d & k' & A & B & C)]; [exists c, k|exists d, k']; cbn [In]; auto.
        * intros (d & k' & [<-|A] & B & C); [left|right; exists d, k'; auto].
          rewrite E in B. injection B as <-. auto.
  Qed.
  Lemma fill_collect : fill_inner cs ins a ab ad min_x max_x min_y max_y (snd dec) =
    collect a ab ad min_x min_y (marked inside a ab ad min_x max_x min_y max_y).
  Proof. exact (fill_inner_eq inside a ab ad min_x max_x min_y max_y). Qed.
  Lemma fill_filled : forall l,
    fill_inner cs ins a ab ad min_x max_x min_y max_y (snd dec) = Ok l ->
    Z.of_nat (length l) = snd dec /\
    forall x, In x l <-> exists i j k, In (i, j) marks /\
       s_int (sceil (corner_z (i, j))) = Ok k /\ In x (four (min_x + i, min_y + j)%Z k).
  Proof.
    intros l H. rewrite fill_collect in H. apply collect_spec in H as [L I].
    pose proof decompose_total as T. split.
    - rewrite L, T, marked_marks, map_length. lia.
    - assert (S : forall i0 j0, In (i0, j0) marks ->
        surface_z a ab ad min_x min_y (min_x + i0, min_y + j0)%Z = corner_z (i0, j0)).
      { intros i0 j0 M. unfold marks in M. apply filter_In in M as [M _]. apply in_prod_iff in M.
        rewrite !in_zrange0 in M. unfold corner_z; cbn [fst snd].
        rewrite (proj1 (decompose_entry i0 j0 (proj1 M) (proj2 M))).
        unfold surface_z, coeffs_at; cbn [fst snd].
        replace (min_x + i0 - min_x)%Z with i0 by lia. replace (min_y + j0 - min_y)%Z with j0 by lia.
        reflexivity. }
      intros x. rewrite I. split.
      + intros (c0 & k & A & B & C). rewrite marked_marks in A. apply in_map_iff in A as ((i0 & j0) & <- & A).
        cbn [fst snd] in *. exists i0, j0, k. rewrite <- S by auto. auto.
      + intros (i0 & j0 & k & A & B & C). exists (min_x + i0, min_y + j0)%Z, k. rewrite S by auto.
        split; auto. rewrite marked_marks. apply in_map_iff. exists (i0, j0). auto.
  Qed.
  (** The list is never written out of its bounds: the only failure is a height that
      is not an int. *)
  Lemma fill_ub : forall r,
    fill_inner cs ins a ab ad min_x max_x min_y max_y (snd dec) = UB r -> r = BadCast.
  Proof.
    intros r H. rewrite fill_collect in H. revert H. generalize (marked inside a ab ad min_x max_x min_y max_y).
    induction l as [|x l IH]; cbn [collect]; [discriminate|].
    destruct (s_int (sceil (surface_z a ab ad min_x min_y x))) as [k|r0|] eqn:Q; cbn [bind].
    - destruct (collect a ab ad min_x min_y l) as [r'| |]; cbn [bind]; try discriminate. auto.
    - intros H. injection H as <-. revert Q. unfold s_int.
      destruct (s_trunc _) as [z|]; [destruct (int_ok z)|]; intros Q; try discriminate; injection Q; auto.
    - discriminate.
  Qed.
End Decompose.

(** ** The walls (C41) *)
(** Bounding box of some points, in indices. *)
Definition hull (g : rgrid) (l : list rvec) (i j : Z) : Prop :=
  (exists p q, In p l /\ In q l /\ vx (ind g p) - 1 < IZR i < vx (ind g q) + 1) /\
  (exists p q, In p l /\ In q l /\ vy (ind g p) - 1 < IZR j < vy (ind g q) + 1).

Lemma near_hull : forall g v l zl zh i j k,
  box_near (ind g (mkVec (vx (low v l)) (vy (low v l)) zl))
           (ind g (mkVec (vx (high v l)) (vy (high v l)) zh)) (i, j, k) ->
  hull g (v :: l) i j.
Proof.
  intros g v l zl zh i j k (X & Y & _).
  destruct (low_attained v l) as ((p1 & P1 & X1) & (p2 & P2 & Y1) & (p3 & P3 & X2) & (p4 & P4 & Y2)).
  unfold ind in X, Y; cbn [vx vy] in X, Y. rewrite <- X1, <- X2 in X. rewrite <- Y1, <- Y2 in Y.
  split; [exists p1, p3|exists p2, p4]; auto.
Qed.

Lemma rectangle_hull : forall (g : rgrid) tol fuel a b c d, grid_fits g -> 0 <= tol ->
  (forall p, In p [a; b; c; d] -> in_cells g (ind g p)) ->
  1 <= vz (ind g b) + vz (ind g d) - vz (ind g a) <= 2 * gz g - 2 ->
  (grid_fuel g <= Z.of_nat fuel)%Z ->
  exists w, calc_rectangle_pos (K := FltR) g tol fuel a b c d = Ok w /\ w <> [] /\
    forall i j k, In (i, j, k) w -> hull g [a; b; c; d] i j /\ (0 <= k <= 2 * g_half_z g)%Z.
Proof.
  intros g tol fuel a b c d Hg Ht Hin Hz F.
  set (L := ind g (mkVec (vx (low a [b; c; d])) (vy (low a [b; c; d])) ((2 - gz g) * g_cell_z g))).
  set (H := ind g (mkVec (vx (high a [b; c; d])) (vy (high a [b; c; d])) ((gz g - 1) * g_cell_z g))).
  assert (Cz : 0 < g_cell_z g) by apply Hg. assert (Cx : 0 < g_cell_xy g) by apply Hg.
  assert (ZL : vz L = 1) by (unfold L, ind, gz; cbn [vz]; field; lra).
  assert (ZH : vz H = 2 * gz g - 2) by (unfold H, ind, gz; cbn [vz]; field; lra).
  destruct (low_attained a [b; c; d]) as ((p1 & P1 & X1) & (p2 & P2 & Y1) & (p3 & P3 & X2) & (p4 & P4 & Y2)).
  assert (VX1 : vx L = vx (ind g p1)) by (unfold L, ind; cbn [vx]; rewrite X1; reflexivity).
  assert (VX2 : vx H = vx (ind g p3)) by (unfold H, ind; cbn [vx]; rewrite X2; reflexivity).
  assert (VY1 : vy L = vy (ind g p2)) by (unfold L, ind; cbn [vy]; rewrite Y1; reflexivity).
  assert (VY2 : vy H = vy (ind g p4)) by (unfold H, ind; cbn [vy]; rewrite Y2; reflexivity).
  assert (CL : in_cells g L).
  { destruct (Hin _ P1) as (A & _). destruct (Hin _ P2) as (_ & B & _).
    destruct (Hin a) as (_ & _ & C); [left; auto|]. unfold in_cells. rewrite VX1, VY1, ZL. lra. }
  assert (CH : in_cells g H).
  { destruct (Hin _ P3) as (A & _). destruct (Hin _ P4) as (_ & B & _).
    destruct (Hin a) as (_ & _ & C); [left; auto|]. unfold in_cells. rewrite VX2, VY2, ZH. lra. }
  assert (B : forall p, In p [a; b; c; d] -> box L H (ind g p)).
  { intros p Hp. pose proof (low_high a [b; c; d] p Hp) as (A1 & A2 & _).
    destruct (Hin p Hp) as (_ & _ & Z). 
    assert (Q : box (mkVec (vx (low a [b; c; d])) (vy (low a [b; c; d])) (vz p))
                    (mkVec (vx (high a [b; c; d])) (vy (high a [b; c; d])) (vz p)) p)
      by (unfold box; cbn [vx vy vz]; repeat split; lra).
    apply (ind_box g) in Q; auto. destruct Q as (Q1 & Q2 & _).
    unfold box. rewrite ZL, ZH. repeat split; try lra; [apply Q1|apply Q1|apply Q2|apply Q2]. }
  pose proof (half_ints g Hg) as (Gx & Gy & Gz & A & Z' & X' & Y').
  assert (LH : vx L <= vx H /\ vy L <= vy H) by (destruct (B a (or_introl eq_refl)) as (? & ? & _); lra).
  destruct (rectangle_box g tol Ht fuel a b c d L H) as (w & E & N & W); auto.
  - apply B; cbn; auto.
  - apply B; cbn; auto.
  - apply B; cbn; auto.
  - apply B; cbn; auto.
  - rewrite ZL, ZH. exact Hz.
  - apply (in_cells_int g Hg); auto.
  - apply (in_cells_int g Hg); auto.
  - unfold area_int. eapply Rle_trans; [|exact A]. apply Rmult_le_compat_l; [lra|].
    destruct CL as (L1 & L2 & _), CH as (H1 & H2 & _). apply Rmult_le_compat; lra.
  - eapply Z.le_trans; [|exact F]. unfold box_fuel, grid_fuel.
    destruct CL as (L1 & L2 & L3), CH as (H1 & H2 & H3). unfold gx, gy, gz in *.
    assert (C : forall x n, x <= 2 * IZR n -> (zceil x <= 2 * n)%Z).
    { intros x n Q. rewrite <- (zceil_IZR (2 * n)). apply zceil_mono. rewrite mult_IZR. lra. }
    pose proof (C (vx H - vx L) (g_half_x g) ltac:(lra)).
    pose proof (C (vy H - vy L) (g_half_y g) ltac:(lra)).
    pose proof (C (vz H - vz L) (g_half_z g) ltac:(lra)). lia.
  - exists w. split; [exact E|]. split; [exact N|]. intros i j k Hc. specialize (W _ Hc). split.
    + exact (near_hull g a [b; c; d] _ _ i j k W).
    + destruct W as (_ & _ & W). rewrite ZL, ZH in W. unfold gz in W.
      assert (0 < k)%Z by (apply lt_IZR; lra).
      assert (k < 2 * g_half_z g)%Z by (apply lt_IZR; rewrite mult_IZR; lra). lia.
Qed.

(** A body whose corners are within [r] of its position, at a pose inside the grid. *)
Definition good_raster (g : rgrid) (buf : Z) (rho : R) (pos : rvec) (vertices : list rvec) (n : nat)
  (r : outcome (area * list (list cell3))) : Prop :=
  exists a walls, r = Ok (a, walls) /\ length walls = n /\
    (1 <= x_lo a)%Z /\ (x_hi a <= 2 * g_half_x g)%Z /\
    (1 <= y_lo a)%Z /\ (y_hi a <= 2 * g_half_y g)%Z /\
    forall w, In w walls -> w <> [] /\ forall i j k, In (i, j, k) w ->
      hull g vertices i j /\ in_area a i j /\ (0 <= k <= 2 * g_half_z g)%Z /\
      Rabs ((IZR i - IZR (g_half_x g)) * g_cell_xy g - vx pos) <= rho + g_cell_xy g /\
      Rabs ((IZR j - IZR (g_half_y g)) * g_cell_xy g - vy pos) <= rho + g_cell_xy g /\
      Rabs ((IZR k + 1 - IZR (g_half_z g)) * g_cell_z g - vz pos) <= rho + g_cell_z g /\
      forall i' j', (1 <= i' < 2 * g_half_x g)%Z -> (1 <= j' < 2 * g_half_y g)%Z ->
        (Z.abs (i' - i) <= buf - 2)%Z -> (Z.abs (j' - j) <= buf - 2)%Z -> in_area a i' j'.

Lemma radius_nonneg : forall b r, radius_le b r -> 0 <= r.
Proof.
  intros b r H. eapply Rle_trans; [apply vlen_nonneg|].
  apply (H (j_r (own_corners b))). left; auto.
Qed.

Lemma bucket_inside : forall (g : rgrid) tol fuel buf (b : rbody) pos ori r rho,
  grid_fits g -> 0 <= tol <= / 3 -> (2 <= buf)%Z -> (grid_fuel g <= Z.of_nat fuel)%Z ->
  ori <> qzero -> radius_le b r -> (1 + 18 * tol) * r <= rho -> ball_inside g rho pos ->
  good_raster g buf rho pos (corner_list (nudge_corners (K := FltR) tol (rcorner_pos pos ori b))) 4
    (raster_bucket (K := FltR) g tol fuel buf b pos ori).
Proof.
  intros g tol fuel buf b pos ori r rho Hg Ht Hb F Ho Hr Hrho Hin.
  pose proof (radius_nonneg b r Hr) as R0.
  pose proof (corners_in_ball b pos ori r Ho Hr) as C.
  destruct (lohi_in_cells g tol r rho pos Hg Ht R0 Hrho Hin) as [CL CH].
  destruct (halves_int g Hg) as [HX HY].
  assert (Cz : 0 < g_cell_z g) by apply Hg. assert (Cx : 0 < g_cell_xy g) by apply Hg.
  destruct (bucket_ok g tol (ball_lo r pos) (ball_hi r pos) buf fuel Ht Cx Cz HX HY
    (in_cells_int g Hg _ CL) (in_cells_int g Hg _ CH)
    (lohi_area g tol r rho pos Hg Ht R0 Hrho Hin)
    (lohi_fuel g tol r rho pos Hg Ht R0 Hrho Hin fuel F) ltac:(lia)
    b pos ori C (corners_level pos ori b Ho)) as (walls & E & L & W).
  destruct (nudge_corners_in tol (proj1 Ht) (proj2 Ht) _ _ _ C) as [Hv _].
  eexists; eexists; split; [exact E|]. split; [exact L|].
  match goal with |- context [area_of g buf ?v ?l] =>
    destruct (area_within g buf v l) as (A1 & A2 & A3 & A4) end.
  do 4 (split; [assumption|]).
  intros w Hw. split; [apply (W w Hw)|]. intros i j k Hc.
  split; [exact (near_hull g _ _ _ _ i j k (proj2 (W w Hw) _ Hc))|].
  destruct (cells_inside g tol r rho pos Hg Ht R0 Hrho Hin buf Hb _ _ Hv walls W w i j k Hw Hc)
    as (Q1 & Q2 & Q3 & Q4 & Q5).
  do 5 (split; [assumption|]). intros i' j'.
  exact (cells_room g tol r pos buf _ _ walls W w i j k i' j' Hw Hc).
Qed.

Lemma blade_inside : forall (g : rgrid) tol fuel buf (b : rbody) pos ori r rho,
  grid_fits g -> 0 <= tol <= / 3 -> (2 <= buf)%Z -> (grid_fuel g <= Z.of_nat fuel)%Z ->
  ori <> qzero -> radius_le b r -> (1 + 18 * tol) * (r + g_cell_xy g) <= rho ->
  ball_inside g rho pos ->
  good_raster g buf rho pos
    (corner_list (nudge_corners (K := FltR) tol (rcorner_pos pos ori b)) ++
     corner_list (nudge_corners (K := FltR) tol (back_corners g (rcorner_pos pos ori b)))) 4
    (raster_blade (K := FltR) g tol fuel buf b pos ori).
Proof.
  intros g tol fuel buf b pos ori r rho Hg Ht Hb F Ho Hr Hrho Hin.
  assert (Cz : 0 < g_cell_z g) by apply Hg. assert (Cx : 0 < g_cell_xy g) by apply Hg.
  pose proof (radius_nonneg b r Hr) as R0. assert (R1 : 0 <= r + g_cell_xy g) by lra.
  assert (Hr' : radius_le b (r + g_cell_xy g)) by (intros p Hp; pose proof (Hr p Hp); lra).
  pose proof (corners_in_ball b pos ori _ Ho Hr') as C.
  pose proof (back_in_ball g b pos ori r Ho Cx Hr) as D.
  destruct (lohi_in_cells g tol _ rho pos Hg Ht R1 Hrho Hin) as [CL CH].
  destruct (halves_int g Hg) as [HX HY].
  destruct (blade_ok g tol (ball_lo (r + g_cell_xy g) pos) (ball_hi (r + g_cell_xy g) pos) buf fuel
    Ht Cx Cz HX HY
    (in_cells_int g Hg _ CL) (in_cells_int g Hg _ CH)
    (lohi_area g tol _ rho pos Hg Ht R1 Hrho Hin)
    (lohi_fuel g tol _ rho pos Hg Ht R1 Hrho Hin fuel F) ltac:(lia)
    b pos ori C D (corners_level pos ori b Ho)) as (walls & E & L & W).
  destruct (nudge_corners_in tol (proj1 Ht) (proj2 Ht) _ _ _ C) as [Hv1 _].
  destruct (nudge_corners_in tol (proj1 Ht) (proj2 Ht) _ _ _ D) as [Hv2 _].
  eexists; eexists; split; [exact E|]. split; [exact L|].
  match goal with |- context [area_of g buf ?v ?l] =>
    destruct (area_within g buf v l) as (A1 & A2 & A3 & A4) end.
  do 4 (split; [assumption|]).
  intros w Hw. split; [apply (W w Hw)|]. intros i j k Hc.
  split; [exact (near_hull g _ _ _ _ i j k (proj2 (W w Hw) _ Hc))|].
  assert (Q : forall i' j', (1 <= i' < 2 * g_half_x g)%Z -> (1 <= j' < 2 * g_half_y g)%Z ->
    (Z.abs (i' - i) <= buf - 2)%Z -> (Z.abs (j' - j) <= buf - 2)%Z ->
    in_area (area_of g buf (j_r (nudge_corners (K := FltR) tol (rcorner_pos pos ori b)))
      (blade_vertices (nudge_corners (K := FltR) tol (rcorner_pos pos ori b))
         (nudge_corners (K := FltR) tol (back_corners g (rcorner_pos pos ori b))))) i' j').
  { intros i' j'. exact (cells_room g tol _ pos buf _ _ walls W w i j k i' j' Hw Hc). }
  assert (Hv : forall p, In p (corner_list (nudge_corners (K := FltR) tol (rcorner_pos pos ori b)) ++
      corner_list (nudge_corners (K := FltR) tol (back_corners g (rcorner_pos pos ori b)))) ->
    box (ball_lo (r + g_cell_xy g) pos) (ball_hi (r + g_cell_xy g) pos) p).
  { intros p Hp. apply in_app_or in Hp. destruct Hp; [apply Hv1|apply Hv2]; auto. }
  destruct (cells_inside g tol _ rho pos Hg Ht R1 Hrho Hin buf Hb _ _ Hv walls W w i j k Hw Hc)
    as (Q1 & Q2 & Q3 & Q4 & Q5).
  do 5 (split; [assumption|]). exact Q.
Qed.

(** ** More cases *)
Lemma new_body_iff : forall o j b t w,
  (body_args_ok o j b t w -> is_built (rnew_body o j b t w)) /\
  (~ body_args_ok o j b t w -> is_throw (rnew_body o j b t w)).
Proof.
  intros o j b t w. split; [|apply new_body_throws]. intros H.
  destruct H as (Ho & Hj & Hb & Ht & H).
  destruct (list3_vec o Ho) as [o' ->]. destruct (list3_vec j Hj) as [j' ->].
  destruct (list3_vec b Hb) as [b' ->]. destruct (list3_vec t Ht) as [t' ->].
  eexists. apply new_body_ok. split; [|split; [|split; [|split]]]; auto.
Qed.

Lemma body_on_a_line :
  exists o j b t w, is_built (rnew_body (list3 o) (list3 j) (list3 b) (list3 t) w) /\
    ~ triangle (vsub j o) (vsub b o) (vsub t o).
Proof.
  exists v0, v0, ex, (mkVec 2 0 0), 1. split.
  - eexists. apply new_body_ok. unfold body_args_ok, vec3, list3, v0, ex; cbn [vx vy vz length].
    repeat split; try lra; intros E; injection E; lra.
  - unfold triangle. intros T. apply T. apply vec_eq; cbn; ring.
Qed.

Lemma a2q_zero : a2q v0 = mkQuat 1 0 0 0.
Proof.
  unfold angle_to_quat, v0. cbn [vx vy vz FltR wid nar ddiv d_of_Z d2].
  replace (0 / 2) with 0 by lra. rewrite sin_0, cos_0.
  match goal with |- (if ?c then _ else _) = _ => replace c with true end.
  - apply quat_eq; cbn; ring.
  - symmetry. apply Rltb_lt. cbn. lra.
Qed.

Lemma index_centre_tie :
  exists g i, rnew_grid (5 / 2) (5 / 2) 1 1 1 = Built g /\ (0 <= i <= 2 * g_half_x g)%Z /\
  cell_index (K := FltR) (g_half_x g) (g_cell_xy g) (at_ (K := FltR) (g_vect_x g) i) = Ok (i + 1)%Z.
Proof.
  assert (H : zround (5 / 2 / 1) = 3%Z).
  { replace (5 / 2 / 1) with (IZR 2 + / 2) by lra. rewrite zround_half_pos by lia. reflexivity. }
  assert (H1 : zround (1 / 1) = 1%Z).
  { replace (1 / 1) with (IZR 1) by lra. apply zround_IZR. }
  assert (S : sizes_ok (5 / 2) (5 / 2) 1 1 1) by (unfold sizes_ok; lra).
  exists (grid_of (5 / 2) (5 / 2) 1 1 1), 3%Z.
  assert (HX : g_half_x (grid_of (5 / 2) (5 / 2) 1 1 1) = 3%Z) by exact H.
  split; [|split].
  - apply new_grid_ok; auto; unfold fits; rewrite ?H, ?H1; lia.
  - rewrite HX. lia.
  - destruct (grid_of_spec _ _ _ _ _ S) as (_ & _ & _ & _ & V & _).
    specialize (V 3%Z). rewrite HX in V. specialize (V ltac:(lia)).
    rewrite HX. unfold at_. 
    change (nth (Z.to_nat 3) (g_vect_x (grid_of (5 / 2) (5 / 2) 1 1 1)) s0)
      with (nth (Z.to_nat 3) (g_vect_x (grid_of (5 / 2) (5 / 2) 1 1 1)) 0).
    rewrite V. unfold cell_index.
    pose proof (d_int_IZR 4) as D.
    assert (E : zround ((- (5 / 2) + 3 * 1) / 1 + 3) = 4%Z).
    { replace ((- (5 / 2) + 3 * 1) / 1 + 3) with (IZR 3 + / 2) by lra.
      rewrite zround_half_pos by lia. reflexivity. }
    rewrite <- E in D at 1. exact D.
Qed.

Lemma vlen_same : forall a, vdist a a = 0.
Proof.
  intros a. unfold vdist, vlen. replace (dot (vsub a a) (vsub a a)) with 0; [apply sqrt_0|].
  destruct a; vecs; ring.
Qed.
Lemma combine_same : forall X (l : list X) x y, In (x, y) (combine l l) -> x = y.
Proof.
  induction l as [|a l IH]; cbn; [intros x y []|]. intros x y [E|H]; [injection E; congruence|auto].
Qed.
Lemma demo_still : 0 < Rmin (g_cell_xy demo_g) (g_cell_z demo_g) /\
  fst (rmovement (pos_ demo_b) (ori_ demo_b) demo_g demo_b) = false.
Proof.
  assert (M : 0 < Rmin (g_cell_xy demo_g) (g_cell_z demo_g)).
  { destruct demo_cells as [-> ->]. rewrite Rmin_left; lra. }
  split; [exact M|].
  apply (movement_spec (pos_ demo_b) (ori_ demo_b) demo_g demo_b M).
  intros x y H. apply combine_same in H as ->. rewrite vlen_same. lra.
Qed.

Lemma line_stops : forall lo hi p q, box lo hi p -> box lo hi q -> int_vec lo -> int_vec hi ->
  exists n, forall fuel, (n <= fuel)%nat ->
  exists l, rline fuel p q = Ok l /\ l <> [] /\ forall c, In c l -> box_near lo hi c.
Proof.
  intros lo hi p q P Q L H. exists (Z.to_nat (line_fuel p q)). intros fuel F.
  apply line_box; auto. lia.
Qed.

Lemma near_border_refuted :
  exists p q, off_border p /\ off_border q /\
  forall fuel, (1 <= fuel)%nat -> exists l, rline fuel p q = Ok l /\
    forall d, last l d <> cell_of q.
Proof.
  exists near_border, near_border. split; [exact near_border_off|]. split; [exact near_border_off|].
  intros fuel F. destruct (near_border_line fuel F) as (l & E & L & C). exists l. split; [exact E|].
  intros d. rewrite L, C. discriminate.
Qed.
Lemma on_border_refuted :
  exists p q, forall fuel, (1 <= fuel)%nat -> exists l, rline fuel p q = Ok l /\
    forall d, last l d <> cell_of q.
Proof.
  exists on_border, past_border.
  intros fuel F. destruct (on_border_line fuel F) as (l & E & L & C). exists l. split; [exact E|].
  intros d. rewrite L, C. discriminate.
Qed.

Lemma vertical_unmarked :
  forall ab ad a mx my i j tol, 0 <= tol -> vx ab * vy ad - vy ab * vx ad = 0 ->
  in_rectangle (K := FltR) tol (rcoeffs ab ad a mx my i j) = false /\
  in_triangle (K := FltR) tol (rcoeffs ab ad a mx my i j) = false.
Proof.
  intros ab ad a mx my i j tol T D. rewrite coeffs_flat by exact D. split.
  - destruct (in_rectangle (K := FltR) tol (0, 0)) eqn:E; [|reflexivity].
    apply in_rectangle_iff in E. lra.
  - destruct (in_triangle (K := FltR) tol (0, 0)) eqn:E; [|reflexivity].
    apply in_triangle_iff in E. lra.
Qed.

Lemma demo_coeffs :
  vx (mkVec 5 0 0) * vy (mkVec 0 4 1) - vy (mkVec 5 0 0) * vx (mkVec 0 4 1) <> 0 /\
  rcoeffs (mkVec 5 0 0) (mkVec 0 4 1) (mkVec 10 20 3) 10 20 1 1 = (3 / 10, 3 / 8) /\
  in_rectangle (K := FltR) demo_tol (3 / 10, 3 / 8) = true.
Proof.
  assert (D : vx (mkVec 5 0 0) * vy (mkVec 0 4 1) - vy (mkVec 5 0 0) * vx (mkVec 0 4 1) <> 0)
    by (cbn; lra).
  split; [exact D|]. split.
  - apply coeffs_solve; [exact D|]. cbn. lra.
  - apply in_rectangle_iff. unfold demo_tol. lra.
Qed.
