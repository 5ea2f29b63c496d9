(** The constructors in exact arithmetic. *)
From Coq Require Import Reals ZArith List Bool Lra Lia Psatz.
From Verif Require Import Outcome Flt FltR FltRFacts ModelTypes ModelGeometry SpecGeo GeoProofs
  PoseProofs.
Import ListNotations.
Open Scope R_scope.

Notation rnew_grid := (new_grid (K := FltR)).
Notation rnew_body := (new_body (K := FltR)).
Notation rnew_param := (new_param (K := FltR) PI).

Definition is_built {T} (b : built T) : Prop := exists x, b = Built x.
Definition is_throw {T} (b : built T) : Prop := exists n, b = Throws n.

(** ** The checks *)
Lemma checks_pass : forall T l n (k : built T),
  forallb negb l = true -> checks n l k = k.
Proof.
  induction l as [|b l IH]; intros n k H; [reflexivity|].
  simpl in H. apply andb_true_iff in H. destruct H as [H1 H2]. destruct b; [discriminate|].
  simpl. auto.
Qed.
Lemma checks_fail : forall T l n (k : built T),
  forallb negb l = false -> exists m, checks n l k = Throws m.
Proof.
  induction l as [|b l IH]; intros n k H; [discriminate|].
  destruct b; simpl; [eauto|]. apply IH. exact H.
Qed.

(** ** Grid *)
Definition sizes_ok (sx sy sz cxy cz : R) : Prop :=
  0 < cz /\ cz <= cxy /\ cxy <= sx /\ cxy <= sy /\ cz <= sz.
Definition fits (size cell : R) : Prop := (2 * zround (size / cell) + 1 <= 2147483647)%Z.

Lemma ratio_ge_1 : forall s c, 0 < c -> c <= s -> (1 <= zround (s / c))%Z.
Proof.
  intros s c H1 H2. replace 1%Z with (zround 1) by apply (zround_IZR 1).
  apply zround_mono. apply (Rmult_le_reg_r c); [auto|]. unfold Rdiv.
  rewrite Rmult_assoc, Rinv_l by lra. lra.
Qed.

Lemma half_length_ok : forall s c, 0 < c -> c <= s -> fits s c ->
  half_length (K := FltR) s c = Ok (zround (s / c)).
Proof.
  intros s c H1 H2 F. pose proof (ratio_ge_1 s c H1 H2). unfold fits in F.
  unfold half_length; rred. rewrite d_int_round. generalize dependent (zround (s / c)); intros z.
  intros. rewrite int_ok_range by lia. cbn [bind]. unfold chk_int.
  rewrite int_ok_range by lia. reflexivity.
Qed.
Lemma half_length_ub : forall s c, 0 < c -> c <= s -> ~ fits s c ->
  exists r, half_length (K := FltR) s c = UB r.
Proof.
  intros s c H1 H2 F. pose proof (ratio_ge_1 s c H1 H2). unfold fits in F.
  unfold half_length; rred. rewrite d_int_round.
  destruct (int_ok (zround (s / c))) eqn:E; cbn [bind]; [|eauto].
  unfold chk_int. destruct (int_ok (2 * zround (s / c) + 1)) eqn:E2; simpl; [|eauto].
  apply int_ok_iff in E2. lia.
Qed.

Lemma grid_checks : forall sx sy sz cxy cz,
  forallb negb
    [ Rleb cz 0; Rleb cxy 0; Rleb sx 0; Rleb sy 0; Rleb sz 0;
      Rltb cxy cz; Rltb sx cxy; Rltb sy cxy; Rltb sz cz ] = true <->
  sizes_ok sx sy sz cxy cz.
Proof.
  intros. unfold sizes_ok. cbn [forallb]. rewrite !andb_true_iff, !negb_true_iff.
  rewrite !Rleb_gt, !Rltb_ge. lra.
Qed.

Lemma levels_length : forall T (f : T -> T) n a, length (levels f a n) = n.
Proof. induction n; simpl; auto. Qed.
Lemma levels_nth : forall c n k a d, (k < n)%nat ->
  nth k (levels (fun v => v + c) a n) d = a + INR k * c.
Proof.
  induction n as [|n IH]; intros k a d H; [lia|]. destruct k.
  - simpl; ring.
  - cbn [levels nth]. rewrite IH by lia. rewrite S_INR; ring.
Qed.

Definition grid_of (sx sy sz cxy cz : R) : rgrid :=
  let hx := zround (sx / cxy) in
  let hy := zround (sy / cxy) in
  let hz := zround (sz / cz) in
  @mkGGrid FltR hx hy hz cxy cz (cxy * cxy) (cxy * cxy * cz)
    (levels (fun v => v + cxy) (- sx) (Z.to_nat (2 * hx + 1)))
    (levels (fun v => v + cxy) (- sy) (Z.to_nat (2 * hy + 1)))
    (levels (fun v => v + cz) (- sz + cz) (Z.to_nat (2 * hz + 1))).

Lemma new_grid_ok : forall sx sy sz cxy cz,
  sizes_ok sx sy sz cxy cz -> fits sx cxy -> fits sy cxy -> fits sz cz ->
  rnew_grid sx sy sz cxy cz = Built (grid_of sx sy sz cxy cz).
Proof.
  intros sx sy sz cxy cz H Fx Fy Fz. unfold new_grid, d0; rred.
  rewrite checks_pass by (apply grid_checks, H).
  unfold sizes_ok in H. rewrite !half_length_ok by (auto; lra). reflexivity.
Qed.
Lemma new_grid_ub : forall sx sy sz cxy cz,
  sizes_ok sx sy sz cxy cz -> ~ (fits sx cxy /\ fits sy cxy /\ fits sz cz) ->
  exists r, rnew_grid sx sy sz cxy cz = BuildUB r.
Proof.
  intros sx sy sz cxy cz H F. unfold new_grid, d0; rred.
  rewrite checks_pass by (apply grid_checks, H). unfold sizes_ok in H.
  assert (D : forall s c, fits s c \/ ~ fits s c) by (intros; unfold fits; lia).
  destruct (D sx cxy) as [Fx|Fx];
    [rewrite (half_length_ok sx cxy) by (auto; lra)
    |destruct (half_length_ub sx cxy) as [r E]; [lra|lra|auto|rewrite E; simpl; eauto]].
  cbn [bind]. destruct (D sy cxy) as [Fy|Fy];
    [rewrite (half_length_ok sy cxy) by (auto; lra)
    |destruct (half_length_ub sy cxy) as [r E]; [lra|lra|auto|rewrite E; simpl; eauto]].
  cbn [bind]. destruct (D sz cz) as [Fz|Fz];
    [tauto
    |destruct (half_length_ub sz cz) as [r E]; [lra|lra|auto|rewrite E; simpl; eauto]].
Qed.
Lemma new_grid_throws : forall sx sy sz cxy cz,
  ~ sizes_ok sx sy sz cxy cz -> is_throw (rnew_grid sx sy sz cxy cz).
Proof.
  intros sx sy sz cxy cz H. unfold new_grid, d0; rred. apply checks_fail.
  apply not_true_is_false. intros E. apply H. apply grid_checks, E.
Qed.

Lemma grid_of_spec : forall sx sy sz cxy cz,
  sizes_ok sx sy sz cxy cz -> let g := grid_of sx sy sz cxy cz in
  (1 <= g_half_x g /\ 1 <= g_half_y g /\ 1 <= g_half_z g)%Z /\
  Z.of_nat (length (g_vect_x g)) = (2 * g_half_x g + 1)%Z /\
  Z.of_nat (length (g_vect_y g)) = (2 * g_half_y g + 1)%Z /\
  Z.of_nat (length (g_vect_z g)) = (2 * g_half_z g + 1)%Z /\
  (forall i, (0 <= i <= 2 * g_half_x g)%Z -> nth (Z.to_nat i) (g_vect_x g) 0 = - sx + IZR i * cxy) /\
  (forall j, (0 <= j <= 2 * g_half_y g)%Z -> nth (Z.to_nat j) (g_vect_y g) 0 = - sy + IZR j * cxy) /\
  (forall k, (0 <= k <= 2 * g_half_z g)%Z ->
     nth (Z.to_nat k) (g_vect_z g) 0 = - sz + cz + IZR k * cz).
Proof.
  intros sx sy sz cxy cz H g. unfold sizes_ok in H.
  pose proof (ratio_ge_1 sx cxy ltac:(lra) ltac:(lra)).
  pose proof (ratio_ge_1 sy cxy ltac:(lra) ltac:(lra)).
  pose proof (ratio_ge_1 sz cz ltac:(lra) ltac:(lra)).
  unfold g, grid_of; cbn [g_half_x g_half_y g_half_z g_vect_x g_vect_y g_vect_z].
  rewrite !levels_length.
  repeat split; try lia; intros i Hi; rewrite levels_nth by lia;
    rewrite INR_IZR_INZ, Z2Nat.id by lia; reflexivity.
Qed.

(** ** Body *)
Definition vec3 (l : list R) : Prop := length l = 3%nat.

Lemma vector_eqb_eq : forall a b : list R, vector_eqb (K := FltR) a b = true <-> a = b.
Proof.
  induction a as [|x a IH]; intros [|y b]; simpl; split; intros H; try discriminate; auto.
  - apply andb_true_iff in H. destruct H as [H1 H2]. rbool. apply IH in H2. congruence.
  - injection H; intros; subst. apply andb_true_iff; split; [apply Reqb_eq; auto|apply IH; auto].
Qed.

Definition body_args_ok (o j b t : list R) (w : R) : Prop :=
  vec3 o /\ vec3 j /\ vec3 b /\ vec3 t /\ j <> b /\ j <> t /\ b <> t /\ 0 < w.

Lemma vector_eqb_neq : forall a b : list R, vector_eqb (K := FltR) a b = false <-> a <> b.
Proof.
  intros a b. rewrite <- vector_eqb_eq. destruct (vector_eqb (K := FltR) a b); split; congruence.
Qed.
Lemma body_checks : forall o j b t w,
  forallb negb
    [ negb (length o =? 3)%nat; negb (length j =? 3)%nat; negb (length b =? 3)%nat;
      negb (length t =? 3)%nat; vector_eqb (K := FltR) j b; vector_eqb (K := FltR) j t;
      vector_eqb (K := FltR) b t; Rleb w 0 ] = true <->
  body_args_ok o j b t w.
Proof.
  intros. unfold body_args_ok, vec3. cbn [forallb].
  rewrite !andb_true_iff, !negb_true_iff, !negb_false_iff, !Nat.eqb_eq, !vector_eqb_neq, Rleb_gt.
  tauto.
Qed.

Definition list3 (v : rvec) : list R := [vx v; vy v; vz v].
Lemma list3_vec : forall l, vec3 l -> exists v, l = list3 v.
Proof.
  intros [|x [|y [|z [|]]]] H; try discriminate. exists (mkVec x y z). reflexivity.
Qed.

Lemma new_body_ok : forall o j b t w,
  body_args_ok (list3 o) (list3 j) (list3 b) (list3 t) w ->
  rnew_body (list3 o) (list3 j) (list3 b) (list3 t) w =
  Built (@mkGBody FltR (vsub j o) (vsub b o) (vsub t o) w v0 qzero).
Proof.
  intros o j b t w H. unfold new_body, d0; rred.
  rewrite checks_pass by (apply body_checks, H). reflexivity.
Qed.
Lemma new_body_throws : forall o j b t w,
  ~ body_args_ok o j b t w -> is_throw (rnew_body o j b t w).
Proof.
  intros o j b t w H. unfold new_body, d0; rred. apply checks_fail.
  apply not_true_is_false. intros E. apply H. apply body_checks, E.
Qed.
Lemma new_body_built : forall o j b t w x,
  rnew_body o j b t w = Built x -> body_args_ok o j b t w.
Proof.
  intros o j b t w x E. destruct (forallb negb
    [ negb (length o =? 3)%nat; negb (length j =? 3)%nat; negb (length b =? 3)%nat;
      negb (length t =? 3)%nat; vector_eqb (K := FltR) j b; vector_eqb (K := FltR) j t;
      vector_eqb (K := FltR) b t; Rleb w 0 ]) eqn:H; [apply body_checks, H|].
  unfold new_body, d0 in E; rred.
  match type of E with checks _ _ ?k = _ => destruct (checks_fail _ _ 0%nat k H) as [m M] end.
  rewrite M in E. discriminate.
Qed.
Lemma new_body_translate : forall o j b t w d,
  body_args_ok (list3 o) (list3 j) (list3 b) (list3 t) w ->
  rnew_body (list3 (vadd o d)) (list3 (vadd j d)) (list3 (vadd b d)) (list3 (vadd t d)) w =
  rnew_body (list3 o) (list3 j) (list3 b) (list3 t) w.
Proof.
  intros o j b t w d H.
  assert (N : forall u v, list3 u <> list3 v -> list3 (vadd u d) <> list3 (vadd v d)).
  { intros [] [] Huv E; apply Huv. unfold list3, vadd in *; simpl in *.
    injection E; intros. repeat f_equal; lra. }
  rewrite (new_body_ok o), (new_body_ok (vadd o d)); auto.
  - assert (S : forall u, vsub (vadd u d) (vadd o d) = vsub u o).
    { intros []; destruct o, d; apply vec_eq; vecs; ring. }
    rewrite !S. reflexivity.
  - destruct H as (_ & _ & _ & _ & H1 & H2 & H3 & H4).
    repeat split; auto.
Qed.

(** ** SimParam *)
Definition param_ok (angle : R) (iterations buffer : Z) : Prop :=
  0 <= angle <= PI / 2 /\ (0 <= iterations)%Z /\ (2 <= buffer)%Z.
Lemma param_checks : forall angle iterations buffer,
  forallb negb [ Rltb (PI / 2) angle || Rltb angle 0; (iterations <? 0)%Z; (buffer <? 2)%Z ] = true
  <-> param_ok angle iterations buffer.
Proof.
  intros. unfold param_ok. cbn [forallb].
  rewrite !andb_true_iff, !negb_true_iff, orb_false_iff, !Rltb_ge, !Z.ltb_ge.
  intuition lia || lra.
Qed.
Lemma new_param_ok : forall angle iterations buffer,
  param_ok angle iterations buffer ->
  rnew_param angle iterations buffer = Built (@mkGParam FltR angle iterations buffer).
Proof.
  intros a i b H. unfold new_param, d2, d0; rred.
  rewrite checks_pass by (apply param_checks, H). reflexivity.
Qed.
Lemma new_param_throws : forall angle iterations buffer,
  ~ param_ok angle iterations buffer -> is_throw (rnew_param angle iterations buffer).
Proof.
  intros a i b H. unfold new_param, d2, d0; rred. apply checks_fail.
  apply not_true_is_false. intros E. apply H. apply param_checks, E.
Qed.

Notation rdh_max := (dh_max (K := FltR) tan).
Lemma dh_max_multiple : forall (g : rgrid) (p : gparam FltR),
  exists n, rdh_max g p = IZR n * g_cell_z g.
Proof.
  intros g p. exists (zround (g_cell_xy g * tan (repose_angle p) / g_cell_z g)).
  unfold dh_max; rred. ring.
Qed.
Lemma zround_nonneg : forall x, 0 <= x -> (0 <= zround x)%Z.
Proof. intros x H. rewrite <- (zround_IZR 0). apply zround_mono, H. Qed.
Lemma tan_nonneg : forall x, 0 <= x < PI / 2 -> 0 <= tan x.
Proof.
  intros x [[H|<-] H2]; [left; apply tan_gt_0; auto|rewrite tan_0; lra].
Qed.
Lemma dh_max_nonneg : forall (g : rgrid) (p : gparam FltR),
  0 < g_cell_xy g -> 0 < g_cell_z g -> 0 <= repose_angle p < PI / 2 ->
  exists n, (0 <= n)%Z /\ rdh_max g p = IZR n * g_cell_z g /\
    (* the nearest multiple to the height difference of the slope *)
    Rabs (rdh_max g p - g_cell_xy g * tan (repose_angle p)) <= g_cell_z g / 2.
Proof.
  intros g p Hx Hz Ha. exists (zround (g_cell_xy g * tan (repose_angle p) / g_cell_z g)).
  pose proof (tan_nonneg _ Ha) as T.
  assert (N : 0 <= g_cell_xy g * tan (repose_angle p) / g_cell_z g).
  { apply Rmult_le_pos; [apply Rmult_le_pos; lra|left; apply Rinv_0_lt_compat; lra]. }
  split; [apply zround_nonneg, N|].
  unfold dh_max; rred. split; [ring|].
  set (y := g_cell_xy g * tan (repose_angle p)) in *.
  destruct (zround_spec (y / g_cell_z g)) as [L U].
  assert (Y : y = y / g_cell_z g * g_cell_z g) by (field; lra).
  rewrite Y at 2. apply Rabs_le. nra.
Qed.
