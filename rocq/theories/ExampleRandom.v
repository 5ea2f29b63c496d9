(** The random trajectories of the bucket stay in the grid. *)
From Coq Require Import Reals ZArith List Bool Lra Lia Psatz Ratan.
From Verif Require Import Outcome Num Base Flt FltR FltRFacts State ModelTypes ModelGeometry
  ModelExample SpecGeo GeoProofs PoseProofs TypesProofs InsideProofs GeoClaims WholeClaims
  ExampleProofs ExampleLoop ExampleRun ExampleTimes.
Import ListNotations.
Open Scope R_scope.

(** A rotation about Y moves a point of the plane XZ by no more than its distance to the axis. *)
Lemma turn_within t v r : 0 <= r -> vx v * vx v + vz v * vz v <= r * r ->
  Rabs (vx (turn t v)) <= r /\ Rabs (vz (turn t v)) <= r.
Proof.
  intros Hr H. unfold turn. cbn [vx vz]. pose proof (sin2_cos2 t) as U. unfold Rsqr in U.
  set (s := sin t) in *. set (c := cos t) in *. set (x := vx v) in *. set (z := vz v) in *.
  assert (Q : (c * x - s * z) * (c * x - s * z) + (s * x + c * z) * (s * x + c * z) = x * x + z * z).
  { replace (x * x + z * z) with ((s * s + c * c) * (x * x + z * z)) by (rewrite U; ring). ring. }
  pose proof (Rle_0_sqr (c * x - s * z)) as A. pose proof (Rle_0_sqr (s * x + c * z)) as B. unfold Rsqr in A, B.
  split; rewrite <- (Rabs_pos_eq r Hr); apply Rsqr_le_abs_0; unfold Rsqr; lra.
Qed.

Lemma shifted_within t p dy v : vy p = 0 -> vy v = 0 -> vx v * vx v + vz v * vz v <= 37 / 50 ->
  Rabs (vx (shifted t p dy v) - vx p) <= 87 / 100 /\ vy (shifted t p dy v) = dy /\
  Rabs (vz (shifted t p dy v) - vz p) <= 87 / 100.
Proof.
  intros Yp Yv H. destruct (turn_within t v (87 / 100)) as [A B]; [lra|lra|].
  unfold shifted, vadd. cbn [vx vy vz].
  assert (E : vy (turn t v) = 0) by exact Yv. rewrite E, Yp. split; [|split; [ring|]].
  - replace (vx (turn t v) + vx p + 0 - vx p) with (vx (turn t v)) by ring. exact A.
  - replace (vz (turn t v) + vz p + 0 - vz p) with (vz (turn t v)) by ring. exact B.
Qed.

Lemma random_args u1 u2 u3 u4 : bucket_random (K := FltR) u1 u2 u3 u4 =
  (-3 + 2 * u1, / 2 + 3 / 2 * u2, - / 2 * u3, - / 4 + / 2 * u4).
Proof. unfold bucket_random, d_half. rred. repeat f_equal; lra. Qed.

Lemma random_stays u1 u2 u3 u4 o nn :
  0 <= u1 <= 1 -> 0 <= u2 <= 1 -> 0 <= u3 <= 1 -> 0 <= u4 <= 1 -> (2 <= nn)%nat ->
  forall p f, In p (trajectory_of (K := FltR) atan (bucket_random (K := FltR) u1 u2 u3 u4) o nn) ->
  In f six -> let c := f (ecorners ex_b p) in
  Rabs (vx c) <= 387 / 100 /\ Rabs (vy c) = / 4 /\ - (112 / 100) <= vz c <= 287 / 100.
Proof.
  intros H1 H2 H3 H4 Hn p f Hp Hf c. rewrite random_args in Hp. cbn [trajectory_of] in Hp.
  set (xi := -3 + 2 * u1) in *. set (zi := / 2 + 3 / 2 * u2) in *.
  set (xm := - / 2 * u3) in *. set (zm := - / 4 + / 2 * u4) in *.
  assert (-3 <= xi <= -1) by (unfold xi; lra). assert (- / 2 <= xm <= 0) by (unfold xm; lra).
  assert (/ 2 <= zi <= 2) by (unfold zi; lra). assert (- / 4 <= zm <= / 4) by (unfold zm; lra).
  clearbody xi zi xm zm.
  assert (P : exists x z t, p = (mkVec x 0 z, mkVec 0 t 0) /\ -3 <= x <= 3 /\ - / 4 <= z <= 2).
  { destruct (trajectory_ends xi zi xm zm o nn Hn) as (Len & _ & _ & A); [lra|right; lra|].
    destruct (A p Hp) as (u & v & Hu & Hv & Ep).
    destruct (In_nth_error _ _ Hp) as (k & Hk).
    assert (Lk : (k < nn)%nat).
    { unfold rtrajectory in Len. rewrite <- Len. apply nth_error_Some. intros Q.
      change (nth_error (rtrajectory xi zi xm zm o nn) k = Some p) in Hk.
      unfold rtrajectory in Hk. rewrite Q in Hk. discriminate Hk. }
    rewrite trajectory_nth in Hk by (lia || lra || (right; lra)). unfold point in Hk. injection Hk as <-.
    cbn [fst] in Ep. injection Ep as Ex Ez. eexists. eexists. eexists. split; [reflexivity|].
    rewrite Ez, Ex. split; nra. }
  destruct P as (x & z & t & -> & Hx & Hz). subst c. rewrite flat_corners by exact ex_flat.
  assert (Q : exists dy v, f (mkCorners (K := FltR)
      (shifted t (mkVec x 0 z) (- (width ex_b / 2)) (j_init ex_b)) (shifted t (mkVec x 0 z) (width ex_b / 2) (j_init ex_b))
      (shifted t (mkVec x 0 z) (- (width ex_b / 2)) (b_init ex_b)) (shifted t (mkVec x 0 z) (width ex_b / 2) (b_init ex_b))
      (shifted t (mkVec x 0 z) (- (width ex_b / 2)) (t_init ex_b)) (shifted t (mkVec x 0 z) (width ex_b / 2) (t_init ex_b)))
      = shifted t (mkVec x 0 z) dy v /\ (dy = / 4 \/ dy = - / 4) /\ vy v = 0 /\
      vx v * vx v + vz v * vz v <= 37 / 50).
  { unfold six in Hf. cbn [In] in Hf.
    assert (W : width ex_b / 2 = / 4) by (unfold ex_b, mission_b; cbn [width]; lra). rewrite W.
    repeat destruct Hf as [<-|Hf]; try contradiction;
      (eexists; eexists; split; [reflexivity|]; split; [auto|];
       unfold ex_b, mission_b; cbn [j_init b_init t_init vx vy vz]; split; lra). }
  destruct Q as (dy & v & -> & Dy & Yv & Lv).
  destruct (shifted_within t (mkVec x 0 z) dy v eq_refl Yv Lv) as (A & -> & B). cbn [vx vz] in A, B.
  split; [|split].
  - apply Rabs_le. revert A. unfold Rabs. destruct (Rcase_abs _); lra.
  - destruct Dy as [-> | ->]; [apply Rabs_pos_eq|rewrite Rabs_left]; lra.
  - revert B. unfold Rabs. destruct (Rcase_abs _); lra.
Qed.
