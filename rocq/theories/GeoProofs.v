(** Quaternions, normals and corners in exact arithmetic. *)
From Coq Require Import Reals ZArith List Bool Lra Lia Psatz.
From Verif Require Import Outcome Flt FltR FltRFacts ModelTypes ModelGeometry SpecGeo.
Import ListNotations.
Open Scope R_scope.

Notation rot := (calc_rotation_quaternion (K := FltR)).

Lemma vec_eq : forall a b : rvec, vx a = vx b -> vy a = vy b -> vz a = vz b -> a = b.
Proof. intros [] []; simpl; congruence. Qed.
Lemma quat_eq : forall a b : rquat,
  qw a = qw b -> qx a = qx b -> qy a = qy b -> qz a = qz b -> a = b.
Proof. intros [] []; simpl; congruence. Qed.

Lemma qlen2_pos : forall q, q <> qzero -> 0 < qlen2 q.
Proof.
  intros [w x y z] H. unfold qlen2; simpl.
  destruct (Req_dec w 0), (Req_dec x 0), (Req_dec y 0), (Req_dec z 0); subst;
    try (exfalso; apply H; reflexivity); nra.
Qed.
Lemma qlen2_nz : forall q, q <> qzero -> qlen2 q <> 0.
Proof. intros q H; pose proof (qlen2_pos q H); lra. Qed.

Ltac vecs := cbv [calc_rotation_quaternion multiply_quaternion calc_normal
  qlen2 qmul qscale qconj qv dot cross vadd vsub vscale s0 vmap vmap2
  qw qx qy qz vx vy vz FltR sf df sadd ssub smul sdiv sopp ssqrt s_of_Z wid nar dadd dsub dmul
  ddiv d_of_Z].

(** The rotation is [turn q v / |q|^2], a polynomial divided by the squared norm. *)
Definition turn (q : rquat) (v : rvec) : rvec :=
  let '(mkQuat w x y z) := q in
  let '(mkVec a b c) := v in
  mkVec ((w * w + x * x - y * y - z * z) * a + 2 * (x * y + w * z) * b + 2 * (x * z - w * y) * c)
        (2 * (x * y - w * z) * a + (w * w - x * x + y * y - z * z) * b + 2 * (y * z + w * x) * c)
        (2 * (x * z + w * y) * a + 2 * (y * z - w * x) * b + (w * w - x * x - y * y + z * z) * c).
Lemma rot_turn : forall q v, rot q v = vscale (/ qlen2 q) (turn q v).
Proof.
  intros [w x y z] [a b c].
  apply vec_eq; unfold turn; vecs;
    unfold Rdiv; generalize (/ (w * w + x * x + y * y + z * z)); intros; ring.
Qed.

Lemma turn_linear : forall q a b u v,
  turn q (vadd (vscale a u) (vscale b v)) = vadd (vscale a (turn q u)) (vscale b (turn q v)).
Proof. intros [w x y z] a b [ux uy uz] [tx ty tz]; apply vec_eq; unfold turn; vecs; ring. Qed.
Lemma turn_dot : forall q u v, dot (turn q u) (turn q v) = qlen2 q * qlen2 q * dot u v.
Proof. intros [w x y z] [ux uy uz] [tx ty tz]; unfold turn; vecs; ring. Qed.
Lemma turn_cross : forall q u v,
  cross (turn q u) (turn q v) = vscale (qlen2 q) (turn q (cross u v)).
Proof. intros [w x y z] [ux uy uz] [tx ty tz]; apply vec_eq; unfold turn; vecs; ring. Qed.
Lemma turn_mul : forall p q v, turn q (turn p v) = turn (qmul p q) v.
Proof. intros [w x y z] [w' x' y' z'] [ux uy uz]; apply vec_eq; unfold turn; vecs; ring. Qed.
Lemma turn_conj : forall q v, turn q (turn (qconj q) v) = vscale (qlen2 q * qlen2 q) v.
Proof. intros [w x y z] [ux uy uz]; apply vec_eq; unfold turn; vecs; ring. Qed.
Lemma turn_qscale : forall k q v, turn (qscale k q) v = vscale (k * k) (turn q v).
Proof. intros k [w x y z] [ux uy uz]; apply vec_eq; unfold turn; vecs; ring. Qed.
Lemma turn_vscale : forall q k v, turn q (vscale k v) = vscale k (turn q v).
Proof. intros [w x y z] k [ux uy uz]; apply vec_eq; unfold turn; vecs; ring. Qed.

Lemma vscale_vscale : forall a b v, vscale a (vscale b v) = vscale (a * b) v.
Proof. intros a b []; apply vec_eq; unfold turn; vecs; ring. Qed.
Lemma vscale_1 : forall v, vscale 1 v = v.
Proof. intros []; apply vec_eq; unfold turn; vecs; ring. Qed.
Lemma dot_vscale : forall a b u v, dot (vscale a u) (vscale b v) = a * b * dot u v.
Proof. intros a b [] []; vecs; ring. Qed.
Lemma cross_vscale : forall a b u v, cross (vscale a u) (vscale b v) = vscale (a * b) (cross u v).
Proof. intros a b [] []; apply vec_eq; unfold turn; vecs; ring. Qed.

Lemma rot_linear : forall q a b u v,
  rot q (vadd (vscale a u) (vscale b v)) = vadd (vscale a (rot q u)) (vscale b (rot q v)).
Proof.
  intros q a b u v. rewrite !rot_turn, turn_linear. generalize (/ qlen2 q); intros k.
  destruct (turn q u), (turn q v); apply vec_eq; unfold turn; vecs; ring.
Qed.
Lemma rot_dot : forall q u v, q <> qzero -> dot (rot q u) (rot q v) = dot u v.
Proof.
  intros q u v H. apply qlen2_nz in H. rewrite !rot_turn, dot_vscale, turn_dot. field; auto.
Qed.
Lemma rot_cross : forall q u v, q <> qzero -> cross (rot q u) (rot q v) = rot q (cross u v).
Proof.
  intros q u v H. apply qlen2_nz in H.
  rewrite !rot_turn, cross_vscale, turn_cross, vscale_vscale. f_equal. field; auto.
Qed.
Lemma qlen2_scale : forall k q, qlen2 (qscale k q) = k * k * qlen2 q.
Proof. intros k []; vecs; ring. Qed.
Lemma rot_scale : forall q k v, q <> qzero -> k <> 0 -> rot (qscale k q) v = rot q v.
Proof.
  intros q k v H Hk. apply qlen2_nz in H.
  rewrite !rot_turn, qlen2_scale, turn_qscale, vscale_vscale. f_equal. field; auto.
Qed.
Lemma mul_is_qmul : forall p q, multiply_quaternion (K := FltR) p q = qmul p q.
Proof. intros [] []; apply quat_eq; unfold multiply_quaternion; vecs; ring. Qed.
Lemma qlen2_mul : forall p q, qlen2 (qmul p q) = qlen2 p * qlen2 q.
Proof. intros [] []; vecs; ring. Qed.
Lemma qmul_nz : forall p q, p <> qzero -> q <> qzero -> qmul p q <> qzero.
Proof.
  intros p q Hp Hq E. apply qlen2_nz in Hp; apply qlen2_nz in Hq.
  pose proof (qlen2_mul p q) as M. rewrite E in M. unfold qlen2 at 1 in M; simpl in M.
  assert (qlen2 p * qlen2 q = 0) as Z by lra. apply Rmult_integral in Z; tauto.
Qed.
Lemma rot_compose : forall p q v, rot q (rot p v) = rot (qmul p q) v.
Proof.
  intros p q v.
  rewrite !rot_turn, turn_vscale, turn_mul, vscale_vscale, qlen2_mul.
  f_equal. rewrite Rinv_mult. ring.
Qed.
Lemma qconj_nz : forall q, q <> qzero -> qconj q <> qzero.
Proof.
  intros [w x y z] H E. apply H. unfold qconj, qzero in *; simpl in *.
  injection E; intros; f_equal; lra.
Qed.
Lemma qlen2_conj : forall q, qlen2 (qconj q) = qlen2 q.
Proof. intros []; vecs; ring. Qed.
Lemma rot_conj : forall q v, q <> qzero -> rot q (rot (qconj q) v) = v.
Proof.
  intros q v H. apply qlen2_nz in H.
  rewrite !rot_turn, turn_vscale, turn_conj, !vscale_vscale, qlen2_conj.
  rewrite <- (vscale_1 v) at 2. f_equal. field; auto.
Qed.
Lemma qconj_inv : forall q, qconj (qconj q) = q.
Proof. intros []; unfold qconj; simpl; f_equal; ring. Qed.
Lemma rot_conj' : forall q v, q <> qzero -> rot (qconj q) (rot q v) = v.
Proof.
  intros q v H. rewrite <- (qconj_inv q) at 2. apply rot_conj, qconj_nz, H.
Qed.

Lemma vsub_lin : forall u v, vsub u v = vadd (vscale 1 u) (vscale (-1) v).
Proof. intros [] []; apply vec_eq; unfold turn; vecs; ring. Qed.
Lemma vadd_lin : forall u v, vadd u v = vadd (vscale 1 u) (vscale 1 v).
Proof. intros [] []; apply vec_eq; unfold turn; vecs; ring. Qed.
Lemma rot_vsub : forall q u v, rot q (vsub u v) = vsub (rot q u) (rot q v).
Proof. intros q u v. rewrite (vsub_lin u), (vsub_lin (rot q u)). apply rot_linear. Qed.
Lemma rot_vadd : forall q u v, rot q (vadd u v) = vadd (rot q u) (rot q v).
Proof. intros q u v. rewrite (vadd_lin u), (vadd_lin (rot q u)). apply rot_linear. Qed.
Lemma rot_vscale : forall q k v, rot q (vscale k v) = vscale k (rot q v).
Proof.
  intros q k v. rewrite !rot_turn, turn_vscale, !vscale_vscale. f_equal. ring.
Qed.
Lemma rot_len : forall q v, q <> qzero -> vlen (rot q v) = vlen v.
Proof. intros; unfold vlen; rewrite rot_dot; auto. Qed.
Lemma rot_dist : forall q u v, q <> qzero -> vdist (rot q u) (rot q v) = vdist u v.
Proof. intros; unfold vdist; rewrite <- rot_vsub, rot_len; auto. Qed.

(** A quaternion of half angle [t/2] around [n] turns vectors by [-t] around [n]. *)
Lemma rot_axis : forall n t v, dot n n = 1 ->
  rot (mkQuat (cos (t / 2)) (sin (t / 2) * vx n) (sin (t / 2) * vy n) (sin (t / 2) * vz n)) v
  = rotation n (- t) v.
Proof.
  intros [nx ny nz] t [a b c] Hn. unfold dot in Hn; simpl in Hn.
  unfold rotation. rewrite cos_neg, sin_neg.
  pose proof (cos_2a (t / 2)) as C; pose proof (sin_2a (t / 2)) as S.
  replace (2 * (t / 2)) with t in C, S by field.
  pose proof (sin2_cos2 (t / 2)) as E. unfold Rsqr in E.
  rewrite C, S, rot_turn.
  generalize dependent (cos (t / 2)); intros k; generalize dependent (sin (t / 2)); intros s; intros.
  assert (Q : qlen2 (mkQuat k (s * nx) (s * ny) (s * nz)) = 1).
  { unfold qlen2; simpl.
    replace (k * k + s * nx * (s * nx) + s * ny * (s * ny) + s * nz * (s * nz))
      with (k * k + s * s * (nx * nx + ny * ny + nz * nz)) by ring. rewrite Hn. lra. }
  simpl vx; simpl vy; simpl vz. rewrite Q, Rinv_1.
  assert (Hx : nx * nx = 1 - ny * ny - nz * nz) by lra.
  assert (Hk : k * k = 1 - s * s) by lra.
  apply vec_eq; unfold turn; vecs; ring [Hx Hk].
Qed.

(** ** Euler angles *)
Lemma half_angles : forall x, cos x = cos (x / 2) * cos (x / 2) - sin (x / 2) * sin (x / 2) /\
  sin x = 2 * sin (x / 2) * cos (x / 2).
Proof.
  intros x. pose proof (cos_2a (x / 2)) as C; pose proof (sin_2a (x / 2)) as S.
  replace (2 * (x / 2)) with x in C, S by field. auto.
Qed.

Definition axis_quat (n : rvec) (t : R) : rquat :=
  mkQuat (cos (t / 2)) (sin (t / 2) * vx n) (sin (t / 2) * vy n) (sin (t / 2) * vz n).

Notation a2q := (angle_to_quat (K := FltR) sin cos).

(** The product of the three elementary rotations, up to sign. *)
Lemma a2q_product : forall a, exists s, (s = 1 \/ s = -1) /\
  a2q a = qscale s (qmul (qmul (axis_quat ez (vx a)) (axis_quat ey (vy a))) (axis_quat ex (vz a)))
  /\ 0 <= qw (a2q a).
Proof.
  intros [a b c]. unfold angle_to_quat, axis_quat, d2; rred; simpl vx; simpl vy; simpl vz.
  generalize (sin (a / 2)) (sin (b / 2)) (sin (c / 2)) (cos (a / 2)) (cos (b / 2)) (cos (c / 2)).
  intros s0' s1 s2 c0 c1 c2. unfold s0; rred.
  destruct (Rltb 0 (c0 * c1 * c2 + s0' * s1 * s2)) eqn:E; rbool.
  - exists 1; split; [auto|split; [|simpl; lra]].
    apply quat_eq; unfold ex, ey, ez; vecs; ring.
  - exists (-1); split; [auto|split; [|simpl; lra]].
    apply quat_eq; unfold ex, ey, ez; vecs; ring.
Qed.

Lemma axis_quat_len : forall n t, dot n n = 1 -> qlen2 (axis_quat n t) = 1.
Proof.
  intros [x y z] t H. unfold axis_quat; revert H; vecs; intros H.
  pose proof (sin2_cos2 (t / 2)) as E. unfold Rsqr in E.
  set (s := sin (t / 2)) in *; set (k := cos (t / 2)) in *.
  replace (k * k + s * x * (s * x) + s * y * (s * y) + s * z * (s * z))
      with (k * k + s * s * (x * x + y * y + z * z)) by ring. rewrite H. lra.
Qed.

Lemma unit_axes : dot ex ex = 1 /\ dot ey ey = 1 /\ dot ez ez = 1.
Proof. unfold dot; simpl; repeat split; ring. Qed.

Lemma a2q_unit : forall a, qlen2 (a2q a) = 1 /\ 0 <= qw (a2q a).
Proof.
  intros a. destruct (a2q_product a) as (s & Hs & E & H0). split; [|exact H0].
  destruct unit_axes as (X & Y & Z).
  rewrite E, qlen2_scale, !qlen2_mul, !axis_quat_len by auto.
  destruct Hs; subst s; ring.
Qed.

Lemma unit_nz : forall q, qlen2 q = 1 -> q <> qzero.
Proof. intros q H E; subst; unfold qlen2 in H; simpl in H; lra. Qed.

(** Rotating with AngleToQuat(a): by -a[0] around z, then -a[1] around y, then -a[2]
    around x. *)
Lemma a2q_rotation : forall a v,
  rot (a2q a) v = rotation ex (- vz a) (rotation ey (- vy a) (rotation ez (- vx a) v)).
Proof.
  intros a v. destruct (a2q_product a) as (s & Hs & E & _).
  destruct unit_axes as (X & Y & Z).
  rewrite E, rot_scale.
  - rewrite <- !rot_compose. unfold axis_quat. rewrite !rot_axis; auto.
  - apply qmul_nz; [apply qmul_nz|]; apply unit_nz, axis_quat_len; auto.
  - destruct Hs; subst s; lra.
Qed.

(** ** Normals *)
Notation normal := (calc_normal (K := FltR)).

Lemma normal_form : forall a b c,
  normal a b c = vscale (/ vlen (cross (vsub b a) (vsub c a))) (cross (vsub b a) (vsub c a)).
Proof.
  intros [] [] []. unfold calc_normal, vlen. apply vec_eq; vecs; unfold Rdiv; ring.
Qed.
Lemma dot_self_pos : forall v, v <> v0 -> 0 < dot v v.
Proof.
  intros [x y z] H. unfold dot; simpl.
  destruct (Req_dec x 0), (Req_dec y 0), (Req_dec z 0); subst;
    try (exfalso; apply H; reflexivity); nra.
Qed.
Lemma dot_self_nonneg : forall v, 0 <= dot v v.
Proof. intros []; unfold dot; simpl; nra. Qed.
Lemma vlen_pos : forall v, v <> v0 -> 0 < vlen v.
Proof. intros v H. apply sqrt_lt_R0, dot_self_pos, H. Qed.
Lemma vlen_sqr : forall v, vlen v * vlen v = dot v v.
Proof. intros; apply sqrt_sqrt, dot_self_nonneg. Qed.
Lemma vlen_nonneg : forall v, 0 <= vlen v.
Proof. intros; apply sqrt_pos. Qed.

Lemma normal_unit : forall a b c, triangle a b c -> dot (normal a b c) (normal a b c) = 1.
Proof.
  intros a b c H. rewrite normal_form, dot_vscale, <- vlen_sqr.
  pose proof (vlen_pos _ H). field. lra.
Qed.
Lemma normal_orth : forall a b c,
  dot (normal a b c) (vsub b a) = 0 /\ dot (normal a b c) (vsub c a) = 0.
Proof.
  intros a b c. rewrite normal_form.
  generalize (/ vlen (cross (vsub b a) (vsub c a))); intros k.
  destruct a, b, c; split; vecs; ring.
Qed.
(** Right-handed: the cross product of the sides is a positive multiple. *)
Lemma normal_right : forall a b c, triangle a b c ->
  exists k, 0 < k /\ cross (vsub b a) (vsub c a) = vscale k (normal a b c).
Proof.
  intros a b c H. exists (vlen (cross (vsub b a) (vsub c a))).
  pose proof (vlen_pos _ H). split; [auto|].
  rewrite normal_form, vscale_vscale, Rinv_r, vscale_1 by lra. auto.
Qed.
Lemma normal_rot : forall q a b c, q <> qzero ->
  normal (rot q a) (rot q b) (rot q c) = rot q (normal a b c).
Proof.
  intros q a b c H. rewrite !normal_form, <- !rot_vsub, rot_cross, rot_len by auto.
  symmetry; apply rot_vscale.
Qed.
Lemma normal_translate : forall a b c d,
  normal (vadd a d) (vadd b d) (vadd c d) = normal a b c.
Proof.
  intros [] [] [] []. rewrite !normal_form. f_equal; [f_equal; f_equal|]; apply vec_eq; unfold turn; vecs; ring.
Qed.
