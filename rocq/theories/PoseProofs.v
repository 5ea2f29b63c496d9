(** Corners of the body, movement test and body frame in exact arithmetic. *)
From Coq Require Import Reals ZArith List Bool Lra Lia Psatz.
From Verif Require Import Outcome Flt FltR FltRFacts ModelTypes ModelGeometry SpecGeo GeoProofs.
Import ListNotations.
Open Scope R_scope.

Notation rbody := (gbody FltR).
Notation rgrid := (ggrid FltR).
Notation rcorners := (corners FltR).
Notation rplace := (place (K := FltR)).
Notation rcorner_pos := (calc_body_corner_pos (K := FltR)).
Notation rmovement := (check_body_movement (K := FltR)).
Notation rframe := (calc_body_frame_pos (K := FltR)).

(** ** Corners *)

(** The corners of the body in its own frame. *)
Definition own_corners (b : rbody) : rcorners :=
  let n := normal (j_init b) (b_init b) (t_init b) in
  let k := width b / 2 in
  @mkCorners FltR
    (vadd (j_init b) (vscale k n)) (vsub (j_init b) (vscale k n))
    (vadd (b_init b) (vscale k n)) (vsub (b_init b) (vscale k n))
    (vadd (t_init b) (vscale k n)) (vsub (t_init b) (vscale k n)).

Definition map_corners (f : rvec -> rvec) (c : rcorners) : rcorners :=
  @mkCorners FltR (f (j_r c)) (f (j_l c)) (f (b_r c)) (f (b_l c)) (f (t_r c)) (f (t_l c)).

Lemma side_plus_eq : forall w (p n : rvec),
  vmap2 (side_plus (K := FltR) w) p n = vadd p (vscale (w / 2) n).
Proof.
  intros w [] []; apply vec_eq; unfold side_plus, d_half; vecs; simpl; field.
Qed.
Lemma side_minus_eq : forall w (p n : rvec),
  vmap2 (side_minus (K := FltR) w) p n = vsub p (vscale (w / 2) n).
Proof.
  intros w [] []; apply vec_eq; unfold side_minus, d_half; vecs; simpl; field.
Qed.
Lemma vmap2_add : forall a b : rvec, vmap2 (sadd (f := FltR)) a b = vadd a b.
Proof. intros [] []; reflexivity. Qed.

Lemma place_eq : forall pos ori x, rplace pos ori x = vadd (rot ori x) pos.
Proof. intros; unfold place; apply vmap2_add. Qed.

Lemma corners_placed : forall pos ori (b : rbody), ori <> qzero ->
  rcorner_pos pos ori b =
  map_corners (rplace pos ori) (own_corners b).
Proof.
  intros pos ori b H. unfold calc_body_corner_pos, map_corners, own_corners.
  cbv zeta. rewrite normal_rot by auto. rewrite !vmap2_add, !side_plus_eq, !side_minus_eq.
  cbn [j_r j_l b_r b_l t_r t_l]. rewrite !place_eq.
  assert (P : forall x k n, vadd (vadd (rot ori x) pos) (vscale k (rot ori n)) =
                            vadd (rot ori (vadd x (vscale k n))) pos).
  { intros x k n. rewrite rot_vadd, rot_vscale.
    destruct (rot ori x), (rot ori n), pos; apply vec_eq; vecs; ring. }
  assert (M : forall x k n, vsub (vadd (rot ori x) pos) (vscale k (rot ori n)) =
                            vadd (rot ori (vsub x (vscale k n))) pos).
  { intros x k n. rewrite rot_vsub, rot_vscale.
    destruct (rot ori x), (rot ori n), pos; apply vec_eq; vecs; ring. }
  rewrite !P, !M. reflexivity.
Qed.

Lemma vdist_place : forall pos ori u v, ori <> qzero ->
  vdist (rplace pos ori u) (rplace pos ori v) = vdist u v.
Proof.
  intros pos ori u v H. rewrite !place_eq, <- (rot_dist ori u v) by auto.
  unfold vdist. f_equal. destruct (rot ori u), (rot ori v), pos. apply vec_eq; vecs; ring.
Qed.

Lemma corner_list_map : forall f c,
  corner_list (map_corners f c) = map f (corner_list c).
Proof. reflexivity. Qed.

Lemma corners_rigid : forall pos ori pos' ori' (b : rbody) m n d,
  ori <> qzero -> ori' <> qzero ->
  (m < 6)%nat -> (n < 6)%nat ->
  let c := corner_list (rcorner_pos pos ori b) in
  let c' := corner_list (rcorner_pos pos' ori' b) in
  vdist (nth m c d) (nth n c d) = vdist (nth m c' d) (nth n c' d).
Proof.
  intros pos ori pos' ori' b m n d H H' Hm Hn c c'. unfold c, c'.
  rewrite !corners_placed, !corner_list_map by auto.
  assert (L : forall f k, (k < 6)%nat ->
            nth k (map f (corner_list (own_corners b))) d =
            f (nth k (corner_list (own_corners b)) d)).
  { intros f k Hk. rewrite (nth_indep _ d (f d)) by (rewrite map_length; simpl; lia).
    apply map_nth. }
  rewrite !L, !vdist_place by auto. reflexivity.
Qed.

Lemma corners_width : forall pos ori (b : rbody), ori <> qzero ->
  triangle (j_init b) (b_init b) (t_init b) ->
  let c := rcorner_pos pos ori b in
  let n := normal (j_r c) (b_r c) (t_r c) in
  dot n n = 1 /\
  vsub (j_r c) (j_l c) = vscale (width b) n /\
  vsub (b_r c) (b_l c) = vscale (width b) n /\
  vsub (t_r c) (t_l c) = vscale (width b) n.
Proof.
  intros pos ori b H T c n. unfold n, c. rewrite corners_placed by auto.
  unfold map_corners, own_corners. cbn [j_r j_l b_r b_l t_r t_l].
  set (m := normal (j_init b) (b_init b) (t_init b)).
  assert (N : normal (rplace pos ori (vadd (j_init b) (vscale (width b / 2) m)))
                     (rplace pos ori (vadd (b_init b) (vscale (width b / 2) m)))
                     (rplace pos ori (vadd (t_init b) (vscale (width b / 2) m))) = rot ori m).
  { rewrite !place_eq, normal_translate, normal_rot, normal_translate by auto. reflexivity. }
  rewrite N. split.
  - rewrite rot_dot by auto. apply normal_unit, T.
  - assert (E : forall x, vsub (rplace pos ori (vadd x (vscale (width b / 2) m)))
                               (rplace pos ori (vsub x (vscale (width b / 2) m)))
                          = vscale (width b) (rot ori m)).
    { intros x. rewrite !place_eq, rot_vadd, rot_vsub, rot_vscale.
      destruct (rot ori x), (rot ori m), pos. apply vec_eq; vecs; field. }
    rewrite !E. auto.
Qed.

(** ** Movement test *)
Lemma smax_list_lt : forall l a m,
  smax_list (K := FltR) a l < m <-> a < m /\ forall x, In x l -> x < m.
Proof.
  unfold smax_list. induction l as [|y l IH]; intros a m; simpl.
  - split; [intros; split; auto; intros x []|tauto].
  - rewrite IH. unfold smax; rred. destruct (Rltb a y) eqn:E; rbool; split; intros [H1 H2].
    + split; [lra|]. intros x [<-|Hx]; auto.
    + split; auto.
    + split; [auto|]. intros x [<-|Hx]; auto; lra.
    + split; auto.
Qed.
Lemma smax_list_gt : forall l a m,
  m < smax_list (K := FltR) a l <-> m < a \/ exists x, In x l /\ m < x.
Proof.
  unfold smax_list. induction l as [|y l IH]; intros a m; simpl.
  - split; [auto|intros [H|(x & [] & _)]; auto].
  - rewrite IH. unfold smax; rred. destruct (Rltb a y) eqn:E; rbool; split; intros [H|(x & Hx & H)].
    + right; eauto.
    + right; eauto.
    + left; lra.
    + destruct Hx as [<-|Hx]; [left; auto|right; eauto].
    + auto.
    + right; eauto.
    + auto.
    + destruct Hx as [<-|Hx]; [left; lra|right; eauto].
Qed.

Lemma corner_dist_eq : forall a b : rvec, corner_dist (K := FltR) a b = vdist a b.
Proof. intros [] []; reflexivity. Qed.

(** The corners of two poses, in pairs. *)
Definition corner_pairs (f n : rcorners) : list (rvec * rvec) :=
  combine (corner_list f) (corner_list n).

Lemma max_dist_lt : forall f n m,
  max_dist (K := FltR) f n < m <-> forall a b, In (a, b) (corner_pairs f n) -> vdist a b < m.
Proof.
  intros f n m. unfold max_dist. rewrite smax_list_lt, !corner_dist_eq.
  unfold corner_pairs, corner_list; cbn [In combine].
  split.
  - intros [H1 H2] a b H.
    repeat (destruct H as [E|H]; [injection E; intros; subst; rewrite <- ?corner_dist_eq; auto 10|]). destruct H.
  - intros H. split; [apply H; auto|]. intros x Hx.
    repeat (destruct Hx as [<-|Hx]; [rewrite corner_dist_eq; apply H; auto 10|]). destruct Hx.
Qed.
Lemma max_dist_gt : forall f n m,
  m < max_dist (K := FltR) f n <-> exists a b, In (a, b) (corner_pairs f n) /\ m < vdist a b.
Proof.
  intros f n m. unfold max_dist. rewrite smax_list_gt, !corner_dist_eq.
  unfold corner_pairs, corner_list; cbn [In combine].
  split.
  - intros [H|(x & Hx & H)]; [exists (j_r f), (j_r n); split; [left; reflexivity|exact H]|].
    repeat (destruct Hx as [E|Hx];
            [rewrite corner_dist_eq in E; subst x;
             match type of H with _ < vdist ?a ?b =>
               exists a, b; split; [auto 12|exact H] end|]).
    destruct Hx.
  - intros (a & b & Hab & H).
    destruct Hab as [E|Hab]; [injection E; intros; subst; auto|right].
    repeat (destruct Hab as [E|Hab];
            [injection E; intros; subst; eexists; split;
             [|rewrite <- corner_dist_eq in H; exact H]; auto 10|]).
    destruct Hab.
Qed.

Lemma smin_Rmin : forall a b, smin (K := FltR) a b = Rmin a b.
Proof.
  intros a b. unfold smin, Rmin; rred. destruct (Rltb b a) eqn:E; rbool;
    destruct (Rle_dec a b); lra.
Qed.

Lemma movement_spec : forall pos ori (g : rgrid) (b : rbody),
  let n := rcorner_pos pos ori b in
  let f := rcorner_pos (pos_ b) (ori_ b) b in
  let m := Rmin (g_cell_xy g) (g_cell_z g) in
  0 < m ->
  (fst (rmovement pos ori g b) = false <->
     forall x y, In (x, y) (corner_pairs f n) -> vdist x y < / 2 * m) /\
  (snd (rmovement pos ori g b) = true <->
     exists x y, In (x, y) (corner_pairs f n) /\ 2 * m < vdist x y) /\
  (fst (rmovement pos ori g b) = false ->
   snd (rmovement pos ori g b) = false).
Proof.
  intros pos ori g b n f m Hm. unfold check_body_movement. fold n f.
  rewrite smin_Rmin. fold m. unfold d_half; rred.
  rewrite <- max_dist_lt, <- max_dist_gt.
  replace (1 / 2 * m) with (/ 2 * m) by field.
  destruct (Rltb (max_dist f n) (/ 2 * m)) eqn:E1; rbool; simpl.
  - repeat split; auto; try discriminate. intros H. exfalso.
    assert (/ 2 * m < 2 * m) by lra. lra.
  - destruct (Rltb (2 * m) (max_dist f n)) eqn:E2; rbool; simpl;
      repeat split; auto; try discriminate; intros; lra.
Qed.

(** ** Body frame *)
Lemma frame_place : forall i j z (g : rgrid) (b : rbody), ori_ b <> qzero ->
  rplace (pos_ b) (ori_ b) (rframe i j z g b) =
  mkVec (at_ (g_vect_x g) i) (at_ (g_vect_y g) j) z.
Proof.
  intros i j z g b H. unfold calc_body_frame_pos.
  change (mkQuat (qw (ori_ b)) (sopp (qx (ori_ b))) (sopp (qy (ori_ b))) (sopp (qz (ori_ b))))
    with (qconj (ori_ b)).
  rewrite place_eq, rot_conj by auto.
  generalize (at_ (g_vect_x g) i) (at_ (g_vect_y g) j); intros x y.
  destruct (pos_ b); apply vec_eq; vecs; ring.
Qed.
Lemma place_inj : forall pos ori u v, ori <> qzero ->
  rplace pos ori u = rplace pos ori v -> u = v.
Proof.
  intros pos ori u v H E. rewrite !place_eq in E.
  assert (E' : rot ori u = rot ori v).
  { destruct (rot ori u), (rot ori v), pos. unfold vadd in E; simpl in E.
    injection E; intros. apply vec_eq; simpl; lra. }
  rewrite <- (rot_conj' ori u), <- (rot_conj' ori v), E' by auto. reflexivity.
Qed.
(** The placement of a point is at the distance of the point to the origin. *)
Lemma place_near : forall pos ori x, ori <> qzero ->
  vdist (rplace pos ori x) pos = vlen x.
Proof.
  intros pos ori x H. rewrite place_eq, <- (rot_len ori x) by auto. unfold vdist. f_equal.
  destruct (rot ori x), pos; apply vec_eq; vecs; ring.
Qed.
