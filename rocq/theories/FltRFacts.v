(** Facts about the exact arithmetic of FltR.v. *)
From Coq Require Import Reals ZArith List Bool Lra Lia.
From Verif Require Import Outcome Flt FltR.
Open Scope R_scope.

Lemma Rltb_lt : forall a b, Rltb a b = true <-> a < b.
Proof. intros; unfold Rltb; destruct (Rlt_dec a b); split; try discriminate; auto; tauto. Qed.
Lemma Rltb_ge : forall a b, Rltb a b = false <-> b <= a.
Proof.
  intros; unfold Rltb; destruct (Rlt_dec a b); split; try discriminate; intros; auto; lra.
Qed.
Lemma Rleb_le : forall a b, Rleb a b = true <-> a <= b.
Proof. intros; unfold Rleb; destruct (Rle_dec a b); split; try discriminate; auto; tauto. Qed.
Lemma Rleb_gt : forall a b, Rleb a b = false <-> b < a.
Proof.
  intros; unfold Rleb; destruct (Rle_dec a b); split; try discriminate; intros; auto; lra.
Qed.
Lemma Reqb_eq : forall a b, Reqb a b = true <-> a = b.
Proof. intros; unfold Reqb; destruct (Req_EM_T a b); split; try discriminate; auto; tauto. Qed.
Lemma Reqb_neq : forall a b, Reqb a b = false <-> a <> b.
Proof. intros; unfold Reqb; destruct (Req_EM_T a b); split; try discriminate; auto; tauto. Qed.

Lemma zfloor_spec : forall x, IZR (zfloor x) <= x < IZR (zfloor x) + 1.
Proof.
  intros x; unfold zfloor; rewrite minus_IZR; destruct (archimed x) as [H1 H2]; lra.
Qed.
Lemma zfloor_unique : forall x n, IZR n <= x < IZR n + 1 -> zfloor x = n.
Proof.
  intros x n [H1 H2]. destruct (zfloor_spec x) as [H3 H4].
  assert (zfloor x < n + 1)%Z by (apply lt_IZR; rewrite plus_IZR; lra).
  assert (n < zfloor x + 1)%Z by (apply lt_IZR; rewrite plus_IZR; lra). lia.
Qed.
Lemma zceil_spec : forall x, IZR (zceil x) - 1 < x <= IZR (zceil x).
Proof.
  intros x; unfold zceil; rewrite opp_IZR; destruct (zfloor_spec (- x)); lra.
Qed.
Lemma zceil_unique : forall x n, IZR n - 1 < x <= IZR n -> zceil x = n.
Proof.
  intros x n H. unfold zceil. rewrite (zfloor_unique (- x) (- n)); [lia|].
  rewrite opp_IZR; lra.
Qed.
Lemma zround_spec : forall x, IZR (zround x) - / 2 <= x <= IZR (zround x) + / 2.
Proof.
  intros x; unfold zround; destruct (Rle_dec 0 x).
  - destruct (zfloor_spec (x + / 2)); lra.
  - rewrite opp_IZR; destruct (zfloor_spec (- x + / 2)); lra.
Qed.
Lemma zround_unique : forall x n, IZR n - / 2 < x < IZR n + / 2 -> zround x = n.
Proof.
  intros x n H; unfold zround; destruct (Rle_dec 0 x).
  - apply zfloor_unique; lra.
  - rewrite (zfloor_unique (- x + / 2) (- n)); [lia|]. rewrite opp_IZR; lra.
Qed.
(** Halves go away from zero. *)
Lemma zround_half_pos : forall n, (0 <= n)%Z -> zround (IZR n + / 2) = (n + 1)%Z.
Proof.
  intros n H; unfold zround. apply IZR_le in H.
  destruct (Rle_dec 0 (IZR n + / 2)); [|lra].
  apply zfloor_unique. rewrite plus_IZR; lra.
Qed.
Lemma zround_mono : forall x y, x <= y -> (zround x <= zround y)%Z.
Proof.
  intros x y H. unfold zround.
  assert (M : forall a b, a <= b -> (zfloor a <= zfloor b)%Z).
  { intros a b Hab. destruct (zfloor_spec a), (zfloor_spec b).
    assert (zfloor a < zfloor b + 1)%Z by (apply lt_IZR; rewrite plus_IZR; lra). lia. }
  destruct (Rle_dec 0 x), (Rle_dec 0 y); try (exfalso; lra).
  - apply M; lra.
  - assert (0 <= zfloor (- x + / 2))%Z.
    { apply Z.lt_succ_r. apply lt_IZR. rewrite succ_IZR. destruct (zfloor_spec (- x + / 2)). lra. }
    assert (0 <= zfloor (y + / 2))%Z.
    { apply Z.lt_succ_r. apply lt_IZR. rewrite succ_IZR. destruct (zfloor_spec (y + / 2)). lra. }
    lia.
  - enough (zfloor (- y + / 2) <= zfloor (- x + / 2))%Z by lia. apply M; lra.
Qed.
Lemma zround_IZR : forall n, zround (IZR n) = n.
Proof. intros; apply zround_unique; lra. Qed.
Lemma zfloor_IZR : forall n, zfloor (IZR n) = n.
Proof. intros; apply zfloor_unique; lra. Qed.
Lemma zceil_IZR : forall n, zceil (IZR n) = n.
Proof. intros; apply zceil_unique; lra. Qed.
Lemma ztrunc_IZR : forall n, ztrunc (IZR n) = n.
Proof.
  intros; unfold ztrunc; destruct (Rle_dec 0 (IZR n)); [apply zfloor_IZR|apply zceil_IZR].
Qed.
Lemma zfloor_mono : forall a b, a <= b -> (zfloor a <= zfloor b)%Z.
Proof.
  intros a b Hab. destruct (zfloor_spec a), (zfloor_spec b).
  assert (zfloor a < zfloor b + 1)%Z by (apply lt_IZR; rewrite plus_IZR; lra). lia.
Qed.
Lemma zceil_mono : forall a b, a <= b -> (zceil a <= zceil b)%Z.
Proof.
  intros a b H. unfold zceil. pose proof (zfloor_mono (- b) (- a) ltac:(lra)). lia.
Qed.

Lemma int_ok_range : forall z, (-2147483648 <= z <= 2147483647)%Z -> int_ok z = true.
Proof.
  intros z H. unfold int_ok. apply andb_true_iff; split; apply Z.leb_le; lia.
Qed.
Lemma int_ok_iff : forall z, int_ok z = true <-> (-2147483648 <= z <= 2147483647)%Z.
Proof.
  intros z. unfold int_ok. rewrite andb_true_iff, !Z.leb_le. lia.
Qed.

(** The comparisons and operations of FltR, as written by [simpl]. *)
Ltac rred := cbn [sf df sadd ssub smul sdiv sopp sabs ssqrt sltb seqb sneg sfloor sceil
  s_of_Z s_trunc dadd dsub dmul ddiv dsqrt dltb dleb deqb dround d_of_Z d_trunc wid nar
  FltR] in *.
Ltac rbool := repeat match goal with
  | H : Rltb _ _ = true |- _ => apply Rltb_lt in H
  | H : Rltb _ _ = false |- _ => apply Rltb_ge in H
  | H : Rleb _ _ = true |- _ => apply Rleb_le in H
  | H : Rleb _ _ = false |- _ => apply Rleb_gt in H
  | H : Reqb _ _ = true |- _ => apply Reqb_eq in H
  | H : Reqb _ _ = false |- _ => apply Reqb_neq in H
  end.

Lemma d_int_round : forall x,
  d_int (K := FltR) (IZR (zround x)) =
  if int_ok (zround x) then Ok (zround x) else UB BadCast.
Proof. intros; unfold d_int; rred; rewrite ztrunc_IZR; reflexivity. Qed.
Lemma s_int_IZR : forall n,
  s_int (K := FltR) (IZR n) = if int_ok n then Ok n else UB BadCast.
Proof. intros; unfold s_int; rred; rewrite ztrunc_IZR; reflexivity. Qed.
Lemma d_int_IZR : forall n,
  d_int (K := FltR) (IZR n) = if int_ok n then Ok n else UB BadCast.
Proof. intros; unfold d_int; rred; rewrite ztrunc_IZR; reflexivity. Qed.
