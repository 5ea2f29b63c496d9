(** The default trajectory of the blade stays in the grid. *)
From Coq Require Import Reals ZArith List Bool Lra Lia Psatz Ratan.
From Verif Require Import Outcome Num Base Flt FltR FltRFacts State ModelTypes ModelGeometry
  ModelExample SpecGeo GeoProofs PoseProofs TypesProofs InsideProofs GeoClaims WholeClaims
  ExampleProofs ExampleLoop ExampleRun ExampleTimes ExampleFaults ExampleRandom.
Import ListNotations.
Open Scope R_scope.

(** The corners of any body whose joint, base and tip are in the plane XZ. *)
Lemma planar_corners (b : rbody) (p : rvec) (t : R) :
  vy (j_init b) = 0 -> vy (b_init b) = 0 -> vy (t_init b) = 0 ->
  let D := (vz (b_init b) - vz (j_init b)) * (vx (t_init b) - vx (j_init b)) -
    (vx (b_init b) - vx (j_init b)) * (vz (t_init b) - vz (j_init b)) in
  D <> 0 ->
  let e := width b / 2 * (D / Rabs D) in
  let at_ v dy := mkVec (cos t * vx v - sin t * vz v + vx p) (vy p + dy)
    (sin t * vx v + cos t * vz v + vz p) in
  ecorners b (p, mkVec 0 t 0) = mkCorners (K := FltR)
    (at_ (j_init b) e) (at_ (j_init b) (- e)) (at_ (b_init b) e) (at_ (b_init b) (- e))
    (at_ (t_init b) e) (at_ (t_init b) (- e)).
Proof.
  intros Yj Yb Yt D HD e at_. unfold example_corners. cbn [fst snd]. rewrite !rotation_turn.
  assert (P : Rabs D <> 0) by (apply Rabs_no_R0; exact HD).
  assert (N : calc_normal (K := FltR) (vmap2 (sadd (f := FltR)) (turn t (j_init b)) p)
    (vmap2 (sadd (f := FltR)) (turn t (b_init b)) p)
    (vmap2 (sadd (f := FltR)) (turn t (t_init b)) p) = mkVec 0 (D / Rabs D) 0).
  { unfold calc_normal, vmap2, turn. rred. cbn [vx vy vz]. rewrite Yj, Yb, Yt.
    pose proof (sin2_cos2 t) as U. unfold Rsqr in U.
    match goal with |- mkVec (?a / ?n) (?b / ?n) (?c / ?n) = _ =>
      assert (A : a = 0) by ring; assert (C : c = 0) by ring;
      assert (B : b = (sin t * sin t + cos t * cos t) * D) by (subst D; ring) end.
    rewrite A, B, C, U. replace (0 * 0 + 1 * D * (1 * D) + 0 * 0) with (Rsqr D) by (unfold Rsqr; ring).
    rewrite sqrt_Rsqr_abs. apply vec_eq; cbn [vx vy vz]; field; exact P. }
  rewrite N. unfold at_, e, vmap2, vmap, turn. rred. cbn [vx vy vz]. rewrite Yj, Yb, Yt.
  f_equal; apply vec_eq; cbn [vx vy vz]; field; exact P.
Qed.

(** The joint, base and tip of the blade turn the other way than those of the bucket: the
    normal points to positive Y. *)
Lemma blade_corners p t :
  ecorners ex_blade (p, mkVec 0 t 0) =
    mkCorners (K := FltR)
      (shifted t p (9 / 4) (j_init ex_blade)) (shifted t p (- (9 / 4)) (j_init ex_blade))
      (shifted t p (9 / 4) (b_init ex_blade)) (shifted t p (- (9 / 4)) (b_init ex_blade))
      (shifted t p (9 / 4) (t_init ex_blade)) (shifted t p (- (9 / 4)) (t_init ex_blade)).
Proof.
  unfold example_corners. cbn [fst snd]. rewrite !rotation_turn.
  assert (N : calc_normal (K := FltR) (vmap2 (sadd (f := FltR)) (turn t (j_init ex_blade)) p)
    (vmap2 (sadd (f := FltR)) (turn t (b_init ex_blade)) p)
    (vmap2 (sadd (f := FltR)) (turn t (t_init ex_blade)) p) = mkVec 0 1 0).
  { unfold calc_normal, vmap2, turn, ex_blade. rred. cbn [j_init b_init t_init vx vy vz].
    pose proof (sin2_cos2 t) as U. unfold Rsqr in U.
    match goal with |- mkVec (?a / ?n) (?b / ?n) (?c / ?n) = _ =>
      assert (A : a = 0) by ring; assert (C : c = 0) by ring;
      assert (B : b = (sin t * sin t + cos t * cos t) * (41 / 50)) by field end.
    rewrite A, B, C, U. replace (0 * 0 + 1 * (41 / 50) * (1 * (41 / 50)) + 0 * 0) with ((41 / 50) * (41 / 50)) by ring.
    rewrite sqrt_square by lra. apply vec_eq; cbn [vx vy vz]; field. }
  rewrite N. unfold shifted, vmap2, vmap, vadd, ex_blade. rred. cbn [j_init b_init t_init width vx vy vz].
  f_equal; apply vec_eq; cbn [vx vy vz]; field.
Qed.

Lemma blade_within t p dy v : vy p = 0 -> vy v = 0 -> vx v * vx v + vz v * vz v <= 282 / 100 ->
  Rabs (vx (shifted t p dy v) - vx p) <= 168 / 100 /\ vy (shifted t p dy v) = dy /\
  Rabs (vz (shifted t p dy v) - vz p) <= 168 / 100.
Proof.
  intros Yp Yv H. destruct (turn_within t v (168 / 100)) as [A B]; [lra|lra|].
  unfold shifted, vadd. cbn [vx vy vz].
  assert (E : vy (turn t v) = 0) by exact Yv. rewrite E, Yp. split; [|split; [ring|]].
  - replace (vx (turn t v) + vx p + 0 - vx p) with (vx (turn t v)) by ring. exact A.
  - replace (vz (turn t v) + vz p + 0 - vz p) with (vz (turn t v)) by ring. exact B.
Qed.

Lemma blade_args : blade_default (K := FltR) = (-2, / 10, / 10, 0).
Proof. unfold blade_default, d0. rred. repeat f_equal; lra. Qed.

Lemma blade_stays o nn : (2 <= nn)%nat ->
  forall p f, In p (trajectory_of (K := FltR) atan (blade_default (K := FltR)) o nn) ->
  In f six -> let c := f (ecorners ex_blade p) in
  Rabs (vx c) <= 388 / 100 /\ Rabs (vy c) = 9 / 4 /\ Rabs (vz c) <= 178 / 100.
Proof.
  intros Hn p f Hp Hf c. rewrite blade_args in Hp. cbn [trajectory_of] in Hp.
  assert (P : exists x z t, p = (mkVec x 0 z, mkVec 0 t 0) /\ -2 <= x <= 22 / 10 /\ 0 <= z <= / 10).
  { destruct (trajectory_ends (-2) (/ 10) (/ 10) 0 o nn Hn) as (Len & _ & _ & A); [lra|right; lra|].
    destruct (A p Hp) as (u & v & Hu & Hv & Ep).
    destruct (In_nth_error _ _ Hp) as (k & Hk).
    assert (Lk : (k < nn)%nat).
    { unfold rtrajectory in Len. rewrite <- Len. apply nth_error_Some. intros Q.
      change (nth_error (rtrajectory (-2) (/ 10) (/ 10) 0 o nn) k = Some p) in Hk.
      unfold rtrajectory in Hk. rewrite Q in Hk. discriminate Hk. }
    rewrite trajectory_nth in Hk by (lia || lra || (right; lra)). unfold point in Hk. injection Hk as <-.
    cbn [fst] in Ep. injection Ep as Ex Ez. eexists. eexists. eexists. split; [reflexivity|].
    rewrite Ez, Ex. split; lra. }
  destruct P as (x & z & t & -> & Hx & Hz). subst c. rewrite blade_corners.
  assert (Q : exists dy v, f (mkCorners (K := FltR)
      (shifted t (mkVec x 0 z) (9 / 4) (j_init ex_blade)) (shifted t (mkVec x 0 z) (- (9 / 4)) (j_init ex_blade))
      (shifted t (mkVec x 0 z) (9 / 4) (b_init ex_blade)) (shifted t (mkVec x 0 z) (- (9 / 4)) (b_init ex_blade))
      (shifted t (mkVec x 0 z) (9 / 4) (t_init ex_blade)) (shifted t (mkVec x 0 z) (- (9 / 4)) (t_init ex_blade)))
      = shifted t (mkVec x 0 z) dy v /\ (dy = 9 / 4 \/ dy = - (9 / 4)) /\ vy v = 0 /\
      vx v * vx v + vz v * vz v <= 282 / 100).
  { unfold six in Hf. cbn [In] in Hf.
    repeat destruct Hf as [<-|Hf]; try contradiction;
      (eexists; eexists; split; [reflexivity|]; split; [auto|];
       unfold ex_blade; cbn [j_init b_init t_init vx vy vz]; split; lra). }
  destruct Q as (dy & v & -> & Dy & Yv & Lv).
  destruct (blade_within t (mkVec x 0 z) dy v eq_refl Yv Lv) as (A & -> & B). cbn [vx vz] in A, B.
  split; [|split].
  - apply Rabs_le. revert A. unfold Rabs. destruct (Rcase_abs _); lra.
  - destruct Dy as [-> | ->]; [apply Rabs_pos_eq|rewrite Rabs_left]; lra.
  - apply Rabs_le. revert B. unfold Rabs. destruct (Rcase_abs _); lra.
Qed.
