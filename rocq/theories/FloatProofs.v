(** Numbers that are not finite, in binary32. *)
From Coq Require Import ZArith List Bool Lia.
From Coq Require Import Floats.SpecFloat.
From Verif Require Import Outcome Base Flt FltB State ModelTypes ModelGeometry ModelBodyPos ModelRaster.
Import ListNotations.
Open Scope Z_scope.

Notation bf := (sf FltB).
Notation bvec := (vec (sf FltB)).
Notation bquat := (quat (sf FltB)).
Notation nan := (S754_nan : sf FltB).

Notation bnew_grid := (new_grid (K := FltB)).
Notation bnew_body := (new_body (K := FltB)).
Notation bnew_param := (new_param (K := FltB)).

(** ** NaN spreads *)
Lemma add_nan_l : forall p e x, SFadd p e S754_nan x = S754_nan.
Proof. destruct x; reflexivity. Qed.
Lemma add_nan_r : forall p e x, SFadd p e x S754_nan = S754_nan.
Proof. destruct x; reflexivity. Qed.
Lemma sub_nan_l : forall p e x, SFsub p e S754_nan x = S754_nan.
Proof. destruct x; reflexivity. Qed.
Lemma sub_nan_r : forall p e x, SFsub p e x S754_nan = S754_nan.
Proof. destruct x; reflexivity. Qed.
Lemma mul_nan_l : forall p e x, SFmul p e S754_nan x = S754_nan.
Proof. destruct x; reflexivity. Qed.
Lemma mul_nan_r : forall p e x, SFmul p e x S754_nan = S754_nan.
Proof. destruct x; reflexivity. Qed.
Lemma div_nan_l : forall p e x, SFdiv p e S754_nan x = S754_nan.
Proof. destruct x; reflexivity. Qed.
Lemma div_nan_r : forall p e x, SFdiv p e x S754_nan = S754_nan.
Proof. destruct x; reflexivity. Qed.
Lemma ltb_nan_l : forall x, b_ltb S754_nan x = false.
Proof. destruct x; reflexivity. Qed.
Lemma ltb_nan_r : forall x, b_ltb x S754_nan = false.
Proof. destruct x; reflexivity. Qed.
Lemma leb_nan_l : forall x, b_leb S754_nan x = false.
Proof. destruct x; reflexivity. Qed.
Lemma eqb_nan_l : forall x, b_eqb S754_nan x = false.
Proof. destruct x; reflexivity. Qed.
Lemma eqb_nan_r : forall x, b_eqb x S754_nan = false.
Proof. destruct x; reflexivity. Qed.

Ltac nans := cbn [FltB sadd ssub smul sdiv sopp sabs ssqrt sltb seqb sfloor sceil s_trunc dadd dsub
    dmul ddiv dsqrt dltb dleb deqb dround d_trunc wid nar b_conv b_to_int SFopp SFabs SFsqrt
    vx vy vz qw qx qy qz];
  repeat (rewrite add_nan_l || rewrite add_nan_r || rewrite sub_nan_l || rewrite sub_nan_r ||
          rewrite mul_nan_l || rewrite mul_nan_r || rewrite div_nan_l || rewrite div_nan_r ||
          rewrite ltb_nan_l || rewrite ltb_nan_r || rewrite leb_nan_l ||
          rewrite eqb_nan_l || rewrite eqb_nan_r).

(** ** Grid *)
Definition not_finite (x : bf) : Prop := x = S754_nan \/ exists s, x = S754_infinity s.

Lemma round_not_finite : forall x : spec_float, not_finite x ->
  d_int (K := FltB) (dround (wid (f := FltB) x)) = UB BadCast.
Proof. intros x [->|[s ->]]; reflexivity. Qed.

(** The division by a positive number keeps NaN and infinity; by an infinity it gives
    NaN, infinity or zero. *)
Lemma div_not_finite_l : forall x y, not_finite x -> b_leb (b_conv dp de y) (d0 (K := FltB)) = false ->
  not_finite (SFdiv sp se x y).
Proof.
  intros x y [->|[s ->]] H.
  - rewrite div_nan_l. left; auto.
  - destruct y; try (left; reflexivity); try (right; eexists; reflexivity).
Qed.
Lemma leb_inf_r : forall x y, b_ltb y x = false -> (exists s, x = S754_infinity s) ->
  b_leb (b_conv dp de x) (d0 (K := FltB)) = false -> y = S754_nan \/ y = S754_infinity false.
Proof.
  intros x y H [s ->] P. destruct s; [discriminate P|].
  destruct y as [s|[]| |s m e]; auto; try discriminate H.
Qed.
Lemma ratio_not_finite : forall x y, not_finite x \/ not_finite y ->
  b_leb (b_conv dp de y) (d0 (K := FltB)) = false -> b_ltb x y = false ->
  exists r, half_length (K := FltB) x y = UB r.
Proof.
  intros x y H P L. unfold half_length.
  assert (N : not_finite (SFdiv sp se x y)).
  { destruct H as [H|[->|H]].
    - apply div_not_finite_l; auto.
    - rewrite div_nan_r. left; auto.
    - destruct (leb_inf_r y x L H P) as [->| ->].
      + rewrite div_nan_l. left; auto.
      + destruct H as [s ->]. left; reflexivity. }
  pose proof (round_not_finite _ N) as E.
  exists BadCast. change (sdiv (f := FltB) x y) with (SFdiv sp se x y). rewrite E. reflexivity.
Qed.

Lemma checks_false : forall T (l : list bool) n (k : built T),
  (forall m, checks n l k <> Throws m) -> forallb negb l = true.
Proof.
  induction l as [|[] l IH]; intros n k H; [reflexivity| |].
  - exfalso. apply (H n). reflexivity.
  - cbn. apply (IH (S n) k). exact H.
Qed.
Lemma checks_all : forall T (l : list bool) n (k : built T),
  forallb negb l = true -> checks n l k = k.
Proof. induction l as [|[] l IH]; intros n k H; cbn in *; try discriminate; auto. Qed.

Lemma half_never_fuel : forall x y, half_length (K := FltB) x y <> OutOfFuel.
Proof.
  intros x y. unfold half_length, d_int, chk_int.
  destruct (d_trunc _) as [n|]; [|discriminate]. destruct (int_ok n); [|discriminate].
  cbn [bind]. destruct (int_ok _); discriminate.
Qed.

Lemma grid_not_finite : forall sx sy sz cxy cz,
  not_finite sx \/ not_finite sy \/ not_finite sz \/ not_finite cxy \/ not_finite cz ->
  (forall n, bnew_grid sx sy sz cxy cz <> Throws n) ->
  exists r, bnew_grid sx sy sz cxy cz = BuildUB r.
Proof.
  intros sx sy sz cxy cz H T. unfold new_grid in T.
  pose proof (checks_false _ _ _ _ T) as C. unfold new_grid. rewrite (checks_all _ _ _ _ C).
  cbn [forallb] in C. rewrite !andb_true_iff, !negb_true_iff in C.
  destruct C as (C1 & C2 & C3 & C4 & C5 & C6 & C7 & C8 & C9 & _).
  assert (N : (exists r, half_length (K := FltB) sx cxy = UB r) \/
              (exists r, half_length (K := FltB) sy cxy = UB r) \/
              (exists r, half_length (K := FltB) sz cz = UB r)).
  { destruct H as [H|[H|[H|[H|H]]]].
    - left. apply ratio_not_finite; auto.
    - right; left. apply ratio_not_finite; auto.
    - right; right. apply ratio_not_finite; auto.
    - left. apply ratio_not_finite; auto.
    - right; right. apply ratio_not_finite; auto. }
  destruct (half_length sx cxy) as [hx|r|] eqn:E1; [| |destruct (half_never_fuel _ _ E1)].
  2: { exists r. reflexivity. }
  cbn [bind]. destruct (half_length sy cxy) as [hy|r|] eqn:E2; [| |destruct (half_never_fuel _ _ E2)].
  2: { exists r. reflexivity. }
  cbn [bind]. destruct (half_length sz cz) as [hz|r|] eqn:E3; [| |destruct (half_never_fuel _ _ E3)].
  2: { exists r. reflexivity. }
  destruct N as [[r N]|[[r N]|[r N]]]; discriminate N.
Qed.

(** An accepted grid with one size replaced by NaN, or a size of the grid by infinity. *)
Lemma built_checks : forall T (l : list bool) n (k : built T) x, checks n l k = Built x ->
  forallb negb l = true.
Proof.
  induction l as [|[] l IH]; intros n k x H; [reflexivity|discriminate H|].
  cbn. exact (IH _ _ _ H).
Qed.
Lemma inf_ltb : forall x, b_ltb (S754_infinity false) x = false.
Proof. destruct x as [|[]| |]; reflexivity. Qed.
Ltac passes := unfold new_grid; rewrite checks_all by
  (cbn [forallb]; nans; rewrite ?inf_ltb; cbn [negb andb];
   repeat match goal with H : ?b = false |- _ => rewrite H; clear H end; reflexivity).

Lemma grid_replaced : forall sx sy sz cxy cz g, bnew_grid sx sy sz cxy cz = Built g ->
  Forall (fun b => exists r, b = BuildUB r)
    [ bnew_grid nan sy sz cxy cz; bnew_grid sx nan sz cxy cz; bnew_grid sx sy nan cxy cz;
      bnew_grid sx sy sz nan cz; bnew_grid sx sy sz cxy nan;
      bnew_grid (S754_infinity false) sy sz cxy cz; bnew_grid sx (S754_infinity false) sz cxy cz;
      bnew_grid sx sy (S754_infinity false) cxy cz ].
Proof.
  intros sx sy sz cxy cz g H. unfold new_grid in H. pose proof (built_checks _ _ _ _ _ H) as C. clear H.
  cbn [forallb] in C. rewrite !andb_true_iff, !negb_true_iff in C.
  destruct C as (C1 & C2 & C3 & C4 & C5 & C6 & C7 & C8 & C9 & _).
  assert (N : not_finite nan) by (left; reflexivity).
  assert (I : not_finite (S754_infinity false)) by (right; eexists; reflexivity).
  assert (Q : forall l k, forallb negb l = true -> forall m, checks 0 l k <> @Throws (ggrid FltB) m ->
    True) by auto.
  assert (P : forall sx sy sz cxy cz,
    not_finite sx \/ not_finite sy \/ not_finite sz \/ not_finite cxy \/ not_finite cz ->
    forallb negb
    [ dleb (wid cz) (d0 (K := FltB)); dleb (wid cxy) d0; dleb (wid sx) d0; dleb (wid sy) d0;
      dleb (wid sz) d0; sltb cxy cz; sltb sx cxy; sltb sy cxy; sltb sz cz ] = true ->
    exists r, bnew_grid sx sy sz cxy cz = BuildUB r).
  { clear. intros sx sy sz cxy cz H C. apply grid_not_finite; [exact H|].
    intros n. unfold new_grid. rewrite (checks_all _ _ _ _ C).
    destruct (bind _ _); discriminate. }
  assert (Z : b_conv dp de (S754_infinity false) = S754_infinity false) by reflexivity.
  assert (Zn : b_conv dp de nan = S754_nan) by reflexivity.
  assert (Zi : b_leb (S754_infinity false) (d0 (K := FltB)) = false) by reflexivity.
  cbn [FltB sltb dleb wid] in *.
  repeat apply Forall_cons; try apply Forall_nil; apply P; try tauto; cbn [forallb];
    rewrite ?Z, ?Zn, ?Zi, ?ltb_nan_l, ?ltb_nan_r, ?leb_nan_l, ?inf_ltb, ?C1, ?C2, ?C3, ?C4, ?C5, ?C6,
      ?C7, ?C8, ?C9; reflexivity.
Qed.

(** ** Body *)
Lemma vector_eqb_nan : forall a b : list bf, In nan a -> vector_eqb (K := FltB) a b = false /\
  vector_eqb (K := FltB) b a = false.
Proof.
  induction a as [|x a IH]; intros b H; [destruct H|].
  destruct b as [|y b]; [split; reflexivity|]. cbn [vector_eqb]. destruct H as [->|H].
  - nans. split; reflexivity.
  - destruct (IH b H) as [-> ->]. rewrite !andb_false_r. split; reflexivity.
Qed.
Lemma body_nan : forall o j b t : list bf,
  length o = 3%nat -> length j = 3%nat -> length b = 3%nat -> length t = 3%nat ->
  In nan j -> In nan b -> exists x, bnew_body o j b t nan = Built x.
Proof.
  intros o j b t Lo Lj Lb Lt Nj Nb. unfold new_body.
  rewrite Lo, Lj, Lb, Lt. destruct (vector_eqb_nan j b Nj) as [-> _].
  destruct (vector_eqb_nan j t Nj) as [-> _]. destruct (vector_eqb_nan b t Nb) as [-> _].
  nans. eexists; reflexivity.
Qed.

(** ** SimParam *)
Lemma param_nan : forall pi iterations buffer, 0 <= iterations -> 2 <= buffer ->
  bnew_param pi nan iterations buffer = Built (@mkGParam FltB nan iterations buffer).
Proof.
  intros pi n b Hn Hb. unfold new_param. nans. cbn [checks orb].
  replace (n <? 0) with false by (symmetry; apply Z.ltb_ge; lia).
  replace (b <? 2) with false by (symmetry; apply Z.ltb_ge; lia). reflexivity.
Qed.
Lemma slope_nan : forall (tan : bf -> bf) (g : ggrid FltB) n b, tan nan = nan ->
  dh_max (K := FltB) tan g (@mkGParam FltB nan n b) = nan.
Proof. intros tan g n b H. unfold dh_max. cbn [repose_angle]. rewrite H. nans. reflexivity. Qed.

(** ** Rotations *)
Definition nan3 : bvec := mkVec nan nan nan.
Definition zero_quat : bquat := mkQuat s0 s0 s0 s0.
Definition bad_quat (q : bquat) : Prop :=
  q = zero_quat \/ qw q = nan \/ qx q = nan \/ qy q = nan \/ qz q = nan.

Lemma rot_bad : forall q v, bad_quat q -> calc_rotation_quaternion (K := FltB) q v = nan3.
Proof.
  intros [w x y z] v H. unfold calc_rotation_quaternion, multiply_quaternion. cbn [qw qx qy qz] in *.
  set (n := sadd (sadd (sadd (smul w w) (smul x x)) (smul y y)) (smul z z)).
  assert (E : sdiv (f := FltB) w n = nan /\ sdiv (f := FltB) (sopp x) n = nan /\
              sdiv (f := FltB) (sopp y) n = nan /\ sdiv (f := FltB) (sopp z) n = nan).
  { unfold n. destruct H as [H|[H|[H|[H|H]]]]; cbn [qw qx qy qz] in H.
    - injection H as -> -> -> ->. repeat split; reflexivity.
    - subst w. nans. auto.
    - subst x. nans. auto.
    - subst y. nans. auto.
    - subst z. nans. auto. }
  destruct E as (-> & -> & -> & ->). nans. reflexivity.
Qed.
Lemma corner_pos_bad : forall pos q (b : gbody FltB), bad_quat q ->
  calc_body_corner_pos (K := FltB) pos q b = mkCorners nan3 nan3 nan3 nan3 nan3 nan3.
Proof.
  intros pos q b H. unfold calc_body_corner_pos. rewrite !rot_bad by auto.
  unfold vmap2, nan3, calc_normal, side_plus, side_minus. nans. reflexivity.
Qed.
Lemma dist_nan : forall a, corner_dist (K := FltB) nan3 a = nan /\ corner_dist (K := FltB) a nan3 = nan.
Proof. intros [x y z]. unfold corner_dist, nan3. nans. auto. Qed.
Lemma smax_nan : forall l, smax_list (K := FltB) nan l = nan.
Proof.
  unfold smax_list. induction l as [|x l IH]; [reflexivity|]. cbn [fold_left].
  unfold smax at 2. nans. exact IH.
Qed.
Lemma smin_nan : forall l, smin_list (K := FltB) nan l = nan.
Proof.
  unfold smin_list. induction l as [|x l IH]; [reflexivity|]. cbn [fold_left].
  unfold smin at 2. nans. exact IH.
Qed.
Lemma movement_bad : forall pos ori g (b : gbody FltB), bad_quat ori \/ bad_quat (ori_ b) ->
  check_body_movement (K := FltB) pos ori g b = (true, false).
Proof.
  intros pos ori g b H. unfold check_body_movement.
  match goal with |- context [max_dist ?f ?n] => assert (E : max_dist f n = nan) end.
  { unfold max_dist. destruct H as [H|H]; rewrite (corner_pos_bad _ _ _ H);
      cbn [j_r j_l b_r b_l t_r t_l].
    - match goal with |- context [corner_dist ?a nan3] => rewrite (proj2 (dist_nan a)) end.
      apply smax_nan.
    - match goal with |- context [corner_dist nan3 ?a] => rewrite (proj1 (dist_nan a)) end.
      apply smax_nan. }
  rewrite E. nans. reflexivity.
Qed.

(** ** Rasterisation *)
Lemma area_row_nan : forall g half buf hi, area_row (K := FltB) g half buf nan hi = UB BadCast.
Proof. intros. unfold area_row. nans. unfold dmax. nans. reflexivity. Qed.
Lemma new_area_nan : forall g buf l v, vx v = nan -> new_area (K := FltB) g buf v l = UB BadCast.
Proof. intros g buf l v H. unfold new_area. rewrite H, smin_nan, area_row_nan. reflexivity. Qed.
Lemma area_row_never_fuel : forall g half buf lo hi, area_row (K := FltB) g half buf lo hi <> OutOfFuel.
Proof.
  intros. unfold area_row, d_int.
  destruct (d_trunc _) as [n|]; [|discriminate]. destruct (int_ok n); [|discriminate]. cbn [bind].
  destruct (d_trunc _) as [m|]; [|discriminate]. destruct (int_ok m); discriminate.
Qed.
Lemma new_area_nan_y : forall g buf l v, vy v = nan -> exists r, new_area (K := FltB) g buf v l = UB r.
Proof.
  intros g buf l v H. unfold new_area. rewrite H, smin_nan.
  match goal with |- context [bind ?x _] => destruct x as [[a b]|r|] eqn:E end.
  - cbn [bind]. rewrite area_row_nan. eexists; reflexivity.
  - eexists; reflexivity.
  - destruct (area_row_never_fuel _ _ _ _ _ E).
Qed.

Lemma raster_bad : forall g tol fuel buf (b : gbody FltB) pos ori, bad_quat ori ->
  raster_bucket (K := FltB) g tol fuel buf b pos ori = UB BadCast /\
  raster_blade (K := FltB) g tol fuel buf b pos ori = UB BadCast.
Proof.
  intros g tol fuel buf b pos ori H. unfold raster_bucket, raster_blade.
  rewrite corner_pos_bad by auto. split.
  - rewrite new_area_nan; [reflexivity|]. unfold nudge_corners, nudge, nudge1, nan3; cbn [j_r]. nans.
    reflexivity.
  - rewrite new_area_nan; [reflexivity|]. unfold nudge_corners, nudge, nudge1, nan3; cbn [j_r]. nans.
    reflexivity.
Qed.
Lemma corner_nan_x : forall pos q (b : gbody FltB), vx pos = nan ->
  vx (j_r (calc_body_corner_pos (K := FltB) pos q b)) = nan.
Proof.
  intros pos q b H. unfold calc_body_corner_pos; cbn [j_r]. unfold vmap2, side_plus; cbn [vx].
  rewrite H. nans. reflexivity.
Qed.
Lemma corner_nan_y : forall pos q (b : gbody FltB), vy pos = nan ->
  vy (j_r (calc_body_corner_pos (K := FltB) pos q b)) = nan.
Proof.
  intros pos q b H. unfold calc_body_corner_pos; cbn [j_r]. unfold vmap2, side_plus; cbn [vy].
  rewrite H. nans. reflexivity.
Qed.
Lemma raster_nan_pos : forall g tol fuel buf (b : gbody FltB) pos ori,
  vx pos = nan \/ vy pos = nan ->
  (exists r, raster_bucket (K := FltB) g tol fuel buf b pos ori = UB r) /\
  (exists r, raster_blade (K := FltB) g tol fuel buf b pos ori = UB r).
Proof.
  intros g tol fuel buf b pos ori H. unfold raster_bucket, raster_blade.
  set (c := calc_body_corner_pos pos ori b).
  assert (N : vx (j_r (nudge_corners (K := FltB) tol c)) = nan \/
              vy (j_r (nudge_corners (K := FltB) tol c)) = nan).
  { unfold nudge_corners, nudge; cbn [j_r vx vy]. unfold nudge1.
    destruct H as [H|H]; [left; unfold c; rewrite !(corner_nan_x _ _ _ H)
                         |right; unfold c; rewrite !(corner_nan_y _ _ _ H)]; nans; reflexivity. }
  assert (A : forall l, exists r, new_area (K := FltB) g buf (j_r (nudge_corners (K := FltB) tol c)) l = UB r).
  { intros l. destruct N as [N|N].
    - exists BadCast. apply new_area_nan; auto.
    - apply new_area_nan_y; auto. }
  split.
  - match goal with |- context [new_area g buf ?v ?l] => destruct (A l) as [r E]; exists r; rewrite E end.
    reflexivity.
  - match goal with |- context [new_area g buf ?v ?l] => destruct (A l) as [r E]; exists r; rewrite E end.
    reflexivity.
Qed.

(** A body with three points on a line. *)
Definition fl (n : Z) : bf := s_of_Z (f := FltB) n.
Definition line_body : gbody FltB :=
  @mkGBody FltB (mkVec (fl 0) (fl 0) (fl 0)) (mkVec (fl 1) (fl 0) (fl 0)) (mkVec (fl 2) (fl 0) (fl 0))
    (fl 1) (mkVec s0 s0 s0) zero_quat.
Lemma line_body_built :
  bnew_body [fl 0; fl 0; fl 0] [fl 0; fl 0; fl 0] [fl 1; fl 0; fl 0] [fl 2; fl 0; fl 0] (fl 1)
  = Built line_body.
Proof. vm_cast_no_check (@eq_refl (built (gbody FltB)) (Built line_body)). Qed.
Lemma line_body_corners :
  calc_body_corner_pos (K := FltB) (mkVec (fl 0) (fl 0) (fl 0)) (mkQuat (fl 1) (fl 0) (fl 0) (fl 0)) line_body
  = mkCorners nan3 nan3 nan3 nan3 nan3 nan3.
Proof.
  vm_cast_no_check (@eq_refl (corners FltB) (mkCorners nan3 nan3 nan3 nan3 nan3 nan3)).
Qed.
Lemma line_body_raster : forall g tol fuel buf,
  raster_bucket (K := FltB) g tol fuel buf line_body (mkVec (fl 0) (fl 0) (fl 0))
    (mkQuat (fl 1) (fl 0) (fl 0) (fl 0)) = UB BadCast.
Proof.
  intros. unfold raster_bucket. rewrite line_body_corners.
  rewrite new_area_nan; [reflexivity|]. unfold nudge_corners, nudge, nudge1, nan3; cbn [j_r]. nans.
  reflexivity.
Qed.

Lemma first_step : forall o j b t w body pos ori g, bnew_body o j b t w = Built body ->
  check_body_movement (K := FltB) pos ori g body = (true, false).
Proof.
  intros o j b t w body pos ori g H. apply movement_bad. right. left.
  unfold new_body in H. pose proof (built_checks _ _ _ _ _ H) as C.
  rewrite (checks_all _ _ _ _ C) in H. injection H as <-. reflexivity.
Qed.
Lemma float_body : exists body,
  bnew_body [fl 0; fl 0; fl 0] [fl 0; fl 0; fl 0] [fl 0; fl 0; slit (-5) 1]
            [slit 7 1; fl 0; slit (-5) 1] (slit 5 1) = Built body.
Proof.
  unfold new_body. rewrite checks_all by (vm_compute; reflexivity). eexists; reflexivity.
Qed.
Lemma float_grid :
  exists g, bnew_grid (slit 4 0) (slit 4 0) (slit 4 0) (slit 1 1) (slit 1 1) = Built g /\
    g_half_x g = 40.
Proof.
  unfold new_grid. rewrite checks_all by (vm_compute; reflexivity).
  assert (E : half_length (K := FltB) (slit 4 0) (slit 1 1) = Ok 40).
  { vm_cast_no_check (@eq_refl (outcome Z) (Ok 40)). }
  rewrite E. cbn [bind of_outcome]. eexists; split; reflexivity.
Qed.
